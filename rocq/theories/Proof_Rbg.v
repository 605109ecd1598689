(** Proofs for Model_Rbg. *)
From Coq Require Import Lia Permutation.
From Verif Require Import Base Lib Model_Gost89 Spec_Gost89 Proof_Gost89 Model_Params Spec_Params Proof_Params Proof_Md
  Model_Rbg Spec_Rbg Spec_RbgApi.

#[local] Opaque gostcrypt encrypt unpack_sbox gost_init gost_key_nomask.

(** ** the generator *)
Section G.
Variable Sb : sbox.
Variable k I s0 : list N.
Hypothesis HI : bytesn 8 I.
Hypothesis Hs0 : bytesn 8 s0.
Notation E := (encrypt Sb k).

Definition conf (r : rbg) : Prop := r_init r = true /\ loaded Sb k (r_c r) /\ r_I r = I.
Definition gst (n : nat) (r : rbg) : Prop := conf r /\ r_s r = gen_after E I n s0.

Lemma gen_after_add a b s : gen_after E I (a + b) s = gen_after E I b (gen_after E I a s).
Proof. revert s. induction a; intros s; cbn; auto. Qed.
Lemma gen_after_S n s : gen_after E I (S n) s = gen_next E I (gen_after E I n s).
Proof. replace (S n) with (n + 1)%nat by lia. rewrite gen_after_add. reflexivity. Qed.
Lemma gen_next_bytesn s : bytesn 8 (gen_next E I s).
Proof. apply encrypt_bytesn. Qed.
Lemma gen_after_bytesn n s : bytesn 8 s -> bytesn 8 (gen_after E I n s).
Proof. revert s. induction n; intros s H; cbn; auto using gen_next_bytesn. Qed.
Lemma gen_x_bytesn s : bytesn 8 (gen_x E I s).
Proof. apply encrypt_bytesn. Qed.

Lemma bit_x_ok n r : gst n r -> bit_x r = gen_x E I (gen_after E I n s0).
Proof.
  intros [(Hi & Hl & HIr) Hs]. unfold bit_x, gen_x. rewrite HIr, Hs.
  apply gostcrypt_spec; auto. apply xorl_bytesn; auto using gen_after_bytesn.
Qed.
Lemma bit_s_conf r x : conf r -> conf (bit_s r x).
Proof. intros (?&?&?). repeat split; auto; apply H0. Qed.
Lemma bit_s_s r x : conf r -> r_s (bit_s r x) = xorl x I.
Proof. intros (?&?&HIr). cbn. now rewrite HIr. Qed.
Lemma bit_e_ok n r : conf r -> r_s r = xorl (gen_x E I (gen_after E I n s0)) I -> gst (S n) (bit_e r).
Proof.
  intros (Hi & Hl & HIr) Hs. split; [repeat split; auto; apply Hl|].
  cbn [bit_e set_s r_s]. rewrite gen_after_S. unfold gen_next. rewrite Hs.
  apply gostcrypt_spec; auto. apply xorl_bytesn; auto using gen_x_bytesn.
Qed.
Lemma low_bit_mod x : low_bit x = nth 0 x 0 mod 2.
Proof. unfold low_bit. change 1 with (2 ^ 1 - 1). now rewrite land_ones_mod. Qed.
Lemma low_bit_x n : low_bit (gen_x E I (gen_after E I n s0)) = gen_bit E I (gen_after E I n s0).
Proof. apply low_bit_mod. Qed.
Lemma get_bit_ok n r : gst n r -> exists r', get_bit r = (r', gen_bit E I (gen_after E I n s0)) /\ gst (S n) r'.
Proof.
  intros H. unfold get_bit. rewrite (bit_x_ok n r H).
  eexists. split; [rewrite low_bit_x; reflexivity|]. destruct H as [Hc Hs].
  apply bit_e_ok; [apply bit_s_conf; auto|apply bit_s_s; auto].
Qed.
Lemma gen_bit_lt s : gen_bit E I s < 2.
Proof. unfold gen_bit. apply N.mod_lt. lia. Qed.
Lemma gen_bits_app a b s : gen_bits E I (a + b) s = gen_bits E I a s ++ gen_bits E I b (gen_after E I a s).
Proof. revert s. induction a; intros s; cbn; [auto|]. now rewrite IHa. Qed.
Lemma gen_bits_length n s : length (gen_bits E I n s) = n.
Proof. revert s; induction n; intros; cbn; auto. Qed.
Lemma bits_val_app a b : bits_val (a ++ b) = bits_val a + 2 ^ N.of_nat (length a) * bits_val b.
Proof.
  induction a as [|x a IH]; cbn [app bits_val length].
  - change (2 ^ N.of_nat 0) with 1. lia.
  - rewrite IH, Nat2N.inj_succ, N.pow_succ_r'. lia.
Qed.
Lemma bits_val_lt n s : bits_val (gen_bits E I n s) < 2 ^ N.of_nat n.
Proof.
  revert s. induction n; intros s; cbn [gen_bits bits_val]; [reflexivity|].
  rewrite Nat2N.inj_succ, N.pow_succ_r'. pose proof (gen_bit_lt s). pose proof (IHn (gen_next E I s)). lia.
Qed.
(** Setting bit j in the partial byte. *)
Lemma set_bit_ok j s : (j < 8)%nat ->
  w8 (N.lor (bits_val (gen_bits E I j s)) (N.shiftl (gen_bit E I (gen_after E I j s)) (N.of_nat j)))
  = bits_val (gen_bits E I (S j) s).
Proof.
  intros Hj. rewrite lor_add by apply bits_val_lt.
  replace (S j) with (j + 1)%nat by lia. rewrite gen_bits_app, bits_val_app, gen_bits_length. cbn [gen_bits bits_val].
  assert (L : bits_val (gen_bits E I (j + 1) s) < 2 ^ 8).
  { eapply N.lt_le_trans; [apply bits_val_lt|]. apply N.pow_le_mono_r; lia. }
  rewrite gen_bits_app, bits_val_app, gen_bits_length in L. cbn [gen_bits bits_val] in L.
  unfold w8. rewrite N.mod_small; lia.
Qed.
Lemma byte_bits_ok n r m j : (m + j = 8)%nat -> gst (n + j) r ->
  exists r', byte_bits m r (N.of_nat j) (bits_val (gen_bits E I j (gen_after E I n s0))) =
             (r', bits_val (gen_bits E I 8 (gen_after E I n s0))) /\ gst (n + 8) r'.
Proof.
  revert r j. induction m; intros r j Hm H; cbn [byte_bits].
  - assert (j = 8%nat) by lia. subst. eauto.
  - destruct (get_bit_ok _ _ H) as (r1 & E1 & H1). rewrite E1.
    rewrite gen_after_add, set_bit_ok by lia.
    replace (N.of_nat j + 1) with (N.of_nat (S j)) by lia.
    apply IHm; [lia|]. now replace (n + S j)%nat with (S (n + j)) by lia.
Qed.
Lemma get_byte_ok p r : gst (8 * p) r -> exists r', get_byte r = (r', gen_byte E I s0 p) /\ gst (8 * S p) r'.
Proof.
  intros H. unfold get_byte, gen_byte.
  destruct (byte_bits_ok (8 * p) r 8 0 eq_refl) as (r' & E1 & H1); [now rewrite Nat.add_0_r|].
  exists r'. split; [exact E1|]. now replace (8 * S p)%nat with (8 * p + 8)%nat by lia.
Qed.
Lemma get_bytes_loop_ok n p r : gst (8 * p) r ->
  exists r', get_bytes_loop n r = (r', map (gen_byte E I s0) (seq p n)) /\ gst (8 * (p + n)) r'.
Proof.
  revert p r. induction n; intros p r H; cbn [get_bytes_loop seq map].
  - rewrite Nat.add_0_r. eauto.
  - destruct (get_byte_ok _ _ H) as (r1 & E1 & H1). rewrite E1.
    destruct (IHn (S p) r1 H1) as (r2 & E2 & H2). rewrite E2. exists r2. split; auto.
    now replace (p + S n)%nat with (S p + n)%nat by lia.
Qed.
End G.

Lemma gen_stream_split E I s a b : gen_stream E I s (a + b) = gen_stream E I s a ++ map (gen_byte E I s) (seq a b).
Proof. unfold gen_stream. now rewrite seq_app, map_app. Qed.
Lemma gen_stream_length E I s a : length (gen_stream E I s a) = a.
Proof. unfold gen_stream. now rewrite map_length, seq_length. Qed.

(** ** seeding *)
Definition dkey (seed : list N) := firstn 32 seed.
Definition dE (seed : list N) := encrypt (packed_sbox default_sbox) (dkey seed).
(** the seeded state after [n] bits *)
Definition sst (seed time : list N) (n : nat) (r : rbg) : Prop :=
  gst (packed_sbox default_sbox) (dkey seed) (dE seed time) (skipn 32 seed) n r.

Lemma bytesn_firstn n m l : bytesn (n + m) l -> bytesn n (firstn n l).
Proof. intros [H L]. split; [now apply bytes_firstn|]. rewrite firstn_length. lia. Qed.
Lemma bytesn_skipn n m l : bytesn (n + m) l -> bytesn m (skipn n l).
Proof. intros [H L]. split; [now apply bytes_skipn|]. rewrite skipn_length. lia. Qed.


Lemma rbg_init_ok r e seed : e_seed e = Some seed -> env_ok e ->
  exists r', rbg_init r e = (r', true) /\ sst seed (e_time e) 0 r'.
Proof.
  intros Es [Hseed Ht]. specialize (Hseed _ Es). unfold rbg_init. rewrite Es. eexists. split; [reflexivity|].
  assert (Hk : bytesn 32 (dkey seed)) by (apply (bytesn_firstn 32 8); exact Hseed).
  assert (Hd : bytesn 64 default_sbox) by (split; [apply bytesb_ok|]; reflexivity).
  pose proof (gost_key_nomask_loaded _ _ _ (sbox_loaded default_sbox (r_c r) Hd) Hk) as Hl.
  split; [split; [reflexivity|split; [exact Hl|]]|].
  - cbn [r_I]. apply gostcrypt_spec; [exact Hl|exact Ht].
  - cbn [r_s gen_after]. apply firstn_all2. destruct Hseed as [_ Hs]. rewrite skipn_length. lia.
Qed.

Lemma zero_crypt : gostcrypt zero_gost (zeros 8) = zeros 8.
Proof. vm_compute. reflexivity. Qed.
Lemma get_bit_zero : get_bit rbg0 = (rbg0, 0).
Proof.
  unfold get_bit, bit_x. cbn [rbg0 r_I r_s r_c]. change (xorl (zeros 8) (zeros 8)) with (zeros 8). rewrite zero_crypt.
  unfold bit_e, bit_s, set_s. cbn [r_I r_s r_c r_init rbg0]. change (xorl (zeros 8) (zeros 8)) with (zeros 8). rewrite zero_crypt.
  reflexivity.
Qed.
Lemma byte_bits_zero k : forall j, byte_bits k rbg0 j 0 = (rbg0, 0).
Proof. induction k; intros j; cbn [byte_bits]; [reflexivity|]. rewrite get_bit_zero. rewrite N.shiftl_0_l. apply IHk. Qed.
Lemma get_bytes_zero n : get_bytes_loop n rbg0 = (rbg0, zeros n).
Proof. induction n; cbn [get_bytes_loop zeros repeat]; [reflexivity|]. unfold get_byte. rewrite byte_bits_zero. rewrite IHn. reflexivity. Qed.
Lemma get_bytes_init n : forall r, r_init (fst (get_bytes_loop n r)) = r_init r.
Proof.
  assert (B : forall k r j b, r_init (fst (byte_bits k r j b)) = r_init r).
  { induction k; intros r j b; cbn [byte_bits]; [reflexivity|]. cbn [get_bit]. apply (IHk (bit_e (bit_s r (bit_x r)))). }
  induction n; intros r; cbn [get_bytes_loop]; [reflexivity|].
  pose proof (B 8%nat r 0 0) as B1. unfold get_byte. destruct (byte_bits 8 r 0 0) as [r1 b].
  pose proof (IHn r1) as B2. destruct (get_bytes_loop n r1) as [r2 l]. cbn [fst] in *. congruence.
Qed.
Lemma get_bytes_len n : forall r, length (snd (get_bytes_loop n r)) = n.
Proof.
  induction n; intros r; cbn [get_bytes_loop]; [reflexivity|]. destruct (get_byte r) as [r1 b].
  specialize (IHn r1). destruct (get_bytes_loop n r1). cbn [snd length] in *. now rewrite IHn.
Qed.

(** ** sequential histories *)
Definition rinv (r : rbg) : Prop := r_init r = false -> r = rbg0.
Lemma status_inv r e r' b : rinv r -> status_nolock r e = (r', b) ->
  rinv r' /\ r_init r' = r_init r || seeds e /\ (b = true -> r_init r = false -> r_init r' = true) /\ (r_init r = false -> b = seeds e).
Proof.
  unfold status_nolock, seeds, rbg_init. intros Hr.
  destruct (e_status e), (r_init r) eqn:Hi; cbn [andb negb]; try destruct (e_seed e); intros E; inversion E; subst; cbn; auto;
    rewrite ?Hi; unfold rinv; cbn; repeat split; auto; try discriminate; congruence.
Qed.
Lemma body_inv r e o r' out : rinv r -> body r e o = (r', out) ->
  rinv r' /\ r_init r' = match o with RCleanup => false | _ => r_init r || seeds e end /\
  match o with
  | RBytes n => o_ret out = r_init r' /\ length (o_data out) = loop_bound n /\ (o_ret out = false -> o_data out = zeros (loop_bound n))
  | _ => o_data out = []
  end.
Proof.
  intros Hr. destruct o as [|num|]; cbn [body].
  - destruct (status_nolock r e) as [r1 b] eqn:E. destruct (status_inv _ _ _ _ Hr E) as (A & B & _). intros X; inversion X; subst. auto.
  - unfold bytes_body.
    destruct (if r_init r then (r, true) else status_nolock r e) as [r1 rv] eqn:E.
    assert (H1 : rinv r1 /\ r_init r1 = r_init r || seeds e /\ rv = r_init r1).
    { destruct (r_init r) eqn:Hi.
      - inversion E; subst. now rewrite Hi.
      - destruct (status_inv _ _ _ _ Hr E) as (A & B & C & D). rewrite Hi in B. cbn in B. split; [exact A|]. split; [exact B|].
        rewrite B. apply D. exact Hi. }
    destruct H1 as (A & B & C). subst rv.
    pose proof (get_bytes_init (loop_bound num) r1) as D. pose proof (get_bytes_len (loop_bound num) r1) as L.
    pose proof (get_bytes_zero (loop_bound num)) as Z.
    destruct (get_bytes_loop (loop_bound num) r1) as [r2 l] eqn:G. cbn [fst snd] in *. intros X; inversion X; subst.
    cbn [o_ret o_data]. split.
    + intros H2. rewrite H2 in D. assert (r1 = rbg0) as -> by (apply A; auto). rewrite G in Z. now inversion Z.
    + rewrite D. repeat split; auto. intros H2. assert (r1 = rbg0) as -> by (apply A; auto). rewrite G in Z. now inversion Z.
  - intros X; inversion X; subst. repeat split; auto.
Qed.

(** with the freed lock ignored, every history *)
Lemma seeded_snoc h eo : seeded_after (h ++ [eo]) = match snd eo with RCleanup => false | _ => seeded_after h || seeds (fst eo) end.
Proof. unfold seeded_after. now rewrite fold_left_app. Qed.
Lemma brun_app h1 : forall r h2, brun r (h1 ++ h2) =
  let '(r1, o1) := brun r h1 in let '(r2, o2) := brun r1 h2 in (r2, o1 ++ o2).
Proof.
  induction h1 as [|[e o] h1 IH]; intros r h2; cbn [app brun]; [now destruct (brun r h2)|].
  destruct (body r e o) as [r1 out]. rewrite IH. destruct (brun r1 h1) as [r2 o1]. destruct (brun r2 h2). reflexivity.
Qed.
Lemma brun_inv h : rinv (fst (brun rbg0 h)) /\ r_init (fst (brun rbg0 h)) = seeded_after h.
Proof.
  induction h as [|[e o] h [IH1 IH2]] using rev_ind; [split; [intros _; reflexivity|reflexivity]|].
  rewrite brun_app. destruct (brun rbg0 h) as [r o1]. cbn [fst brun] in *.
  destruct (body r e o) as [r' out] eqn:E. cbn [fst]. destruct (body_inv _ _ _ _ _ IH1 E) as (A & B & _).
  rewrite seeded_snoc. cbn [fst snd]. rewrite <- IH2. auto.
Qed.
Lemma brun_len h : forall r, length (snd (brun r h)) = length h.
Proof.
  induction h as [|[e o] h IH]; intros r; cbn [brun]; [reflexivity|]. destruct (body r e o) as [r1 out].
  specialize (IH r1). destruct (brun r1 h). cbn [snd length] in *. now rewrite IH.
Qed.
(** the call after history h *)
Lemma brun_last h e o : exists outs out, snd (brun rbg0 (h ++ [(e, o)])) = outs ++ [out] /\ outs = snd (brun rbg0 h) /\
  match o with
  | RBytes n => o_ret out = seeded_after (h ++ [(e, o)]) /\ length (o_data out) = loop_bound n /\
                (o_ret out = false -> o_data out = zeros (loop_bound n))
  | _ => o_data out = []
  end.
Proof.
  destruct (brun_inv h) as [A B]. rewrite brun_app, seeded_snoc. destruct (brun rbg0 h) as [r o1]. cbn [fst snd brun] in *.
  destruct (body r e o) as [r' out] eqn:E. cbn [snd]. exists o1, out. split; [reflexivity|]. split; [reflexivity|].
  destruct (body_inv _ _ _ _ _ A E) as (C & D & F). destruct o; auto. rewrite D, B in F. exact F.
Qed.

(** with the lock *)
Lemma rcall_live r e o : rcall LLive r e o = Some (match o with RCleanup => LFreed | _ => LLive end, fst (body r e o), snd (body r e o)).
Proof. unfold rcall. cbn [lock unlock]. now destruct (body r e o). Qed.
Lemma rcall_none r e o : rcall LNone r e o = if e_lock e then rcall LLive r e o else None.
Proof. unfold rcall. cbn [lock]. destruct (e_lock e); cbn [unlock]; [reflexivity|]. now destruct (body r e o). Qed.
Lemma rrun_live h : forall r, no_cleanup h -> rrun LLive r h = Some (LLive, fst (brun r h), snd (brun r h)).
Proof.
  induction h as [|[e o] h IH]; intros r H; cbn [rrun brun]; [reflexivity|]. inversion H as [|? ? H1 H2]; subst. cbn in H1.
  rewrite rcall_live. destruct (body r e o) as [r1 out]. cbn [fst snd].
  replace (match o with RCleanup => LFreed | _ => LLive end) with LLive by (destruct o; congruence).
  rewrite (IH r1 H2). now destruct (brun r1 h).
Qed.
(** Whenever the program with the lock is defined it does what the bodies do. *)
Lemma rrun_brun h : forall l r l' r' outs, rrun l r h = Some (l', r', outs) -> brun r h = (r', outs).
Proof.
  induction h as [|[e o] h IH]; intros l r l' r' outs; cbn [rrun brun]; [intros E; now inversion E|].
  unfold rcall. destruct (lock l e) as [l1|]; [|discriminate]. destruct (body r e o) as [r1 out].
  destruct (unlock l1) as [l2|]; [|discriminate]. destruct (rrun _ r1 h) as [[[l3 r3] outs3]|] eqn:E; [|discriminate].
  intros X; inversion X; subst. apply IH in E. now rewrite E.
Qed.
Lemma rrun_freed h r : h <> [] -> rrun LFreed r h = None.
Proof. destruct h as [|[e o] h]; [congruence|reflexivity]. Qed.
Lemma rrun_live_defined h : forall r, rrun LLive r h <> None <-> no_cleanup (removelast h).
Proof.
  induction h as [|[e o] h IH]; intros r; [split; [constructor|discriminate]|].
  cbn [rrun]. rewrite rcall_live. destruct h as [|eo h].
  - cbn [rrun removelast]. split; [constructor|discriminate].
  - change (removelast ((e, o) :: eo :: h)) with ((e, o) :: removelast (eo :: h)).
    destruct o.
    + specialize (IH (fst (body r e RStatus))). destruct (rrun LLive (fst (body r e RStatus)) (eo :: h)) as [[[? ?] ?]|].
      * split; [|discriminate]. intros _. constructor; [discriminate|]. apply IH. discriminate.
      * split; [congruence|]. intros H; inversion H; subst. apply IH in H3. congruence.
    + specialize (IH (fst (body r e (RBytes num)))). destruct (rrun LLive (fst (body r e (RBytes num))) (eo :: h)) as [[[? ?] ?]|].
      * split; [|discriminate]. intros _. constructor; [discriminate|]. apply IH. discriminate.
      * split; [congruence|]. intros H; inversion H; subst. apply IH in H3. congruence.
    + rewrite rrun_freed by discriminate. split; [congruence|]. intros H; inversion H; subst. cbn in H2. congruence.
Qed.
Lemma rrun_defined h : rrun LNone rbg0 h <> None <-> defined_history h.
Proof.
  destruct h as [|[e o] h]; [split; [constructor|discriminate]|]. cbn [defined_history].
  assert (X : rrun LNone rbg0 ((e, o) :: h) = if e_lock e then rrun LLive rbg0 ((e, o) :: h) else None).
  { cbn [rrun]. rewrite rcall_none. now destruct (e_lock e). }
  rewrite X. destruct (e_lock e).
  - rewrite rrun_live_defined. intuition.
  - intuition congruence.
Qed.

(** ** C24 *)
Lemma loop_bound_ok n : (0 <= n < 2 ^ 31)%Z -> loop_bound n = Z.to_nat n.
Proof. intros H. unfold loop_bound. rewrite Z.mod_small; [reflexivity|]. lia. Qed.
Lemma sst_body seed time p r e o : bytesn 40 seed -> sst seed time (8 * p) r -> o <> RCleanup -> op_size_ok o ->
  exists r' out, body r e o = (r', out) /\ served (e, o) out /\ sst seed time (8 * (p + length (o_data out))) r' /\
    o_data out = map (gen_byte (dE seed) (dE seed time) (skipn 32 seed)) (seq p (length (o_data out))).
Proof.
  intros Hsd H Ho Hn. assert (Hi : r_init r = true) by apply H.
  assert (HI : bytesn 8 (dE seed time)) by apply encrypt_bytesn.
  assert (Hs : bytesn 8 (skipn 32 seed)) by (apply (bytesn_skipn 32 8); exact Hsd).
  destruct o as [|n|]; [| |congruence].
  - cbn [body]. unfold status_nolock. rewrite Hi, andb_false_r. do 2 eexists. split; [reflexivity|]. cbn [o_data length].
    split; [reflexivity|]. split; [now rewrite Nat.add_0_r|reflexivity].
  - cbn [body]. unfold bytes_body. rewrite Hi. cbn [op_size_ok] in Hn. rewrite (loop_bound_ok n Hn).
    destruct (get_bytes_loop_ok _ _ _ _ HI Hs (Z.to_nat n) p r H) as (r' & E & H'). unfold dE in E. rewrite E.
    do 2 eexists. split; [reflexivity|]. unfold served. cbn [o_data o_ret snd]. rewrite map_length, seq_length. auto.
Qed.
Lemma sst_run seed time h : forall p r, bytesn 40 seed -> sst seed time (8 * p) r -> no_cleanup h -> Forall op_size_ok (map snd h) ->
  Forall2 served h (snd (brun r h)) /\
  let d := concat (map o_data (snd (brun r h))) in
  d = map (gen_byte (dE seed) (dE seed time) (skipn 32 seed)) (seq p (length d)).
Proof.
  induction h as [|[e o] h IH]; intros p r Hsd H Hc Hn; cbn [brun snd map concat]; [split; [constructor|reflexivity]|].
  inversion Hc as [|? ? Hc1 Hc2]; subst. inversion Hn as [|? ? Hn1 Hn2]; subst.
  destruct (sst_body seed time p r e o Hsd H Hc1 Hn1) as (r' & out & E & Hserv & Hst & Hd). rewrite E.
  destruct (IH _ r' Hsd Hst Hc2 Hn2) as [A B]. destruct (brun r' h) as [r2 outs]. cbn [snd map concat] in *.
  split; [constructor; auto|]. rewrite app_length, seq_app, map_app. rewrite <- Hd. f_equal. exact B.
Qed.
(** the first seeding call of an unseeded generator *)
Lemma seed_call e o seed : e_seed e = Some seed -> e_status e = true -> env_ok e -> o <> RCleanup ->
  exists r', body rbg0 e o = body r' e o /\ sst seed (e_time e) 0 r'.
Proof.
  intros Es Hst Ho Hc. destruct (rbg_init_ok rbg0 e seed Es Ho) as (r' & E & H). exists r'. split; [|exact H].
  assert (Hi : r_init r' = true) by apply H.
  destruct o; [| |congruence]; cbn [body]; unfold bytes_body, status_nolock; rewrite Hst, Hi; cbn [andb negb r_init rbg0]; rewrite E; reflexivity.
Qed.
Lemma unseeded_run h : Forall (fun eo => seeds (fst eo) = false) h -> fst (brun rbg0 h) = rbg0.
Proof.
  intros H. destruct (brun_inv h) as [A B]. apply A. rewrite B. clear A B. unfold seeded_after.
  induction h as [|[e o] h IH] using rev_ind; [reflexivity|]. rewrite fold_left_app. apply Forall_app in H. destruct H as [H1 H2].
  inversion H2; subst. cbn [fold_left]. rewrite (IH H1). cbn in *. rewrite H3. now destruct o.
Qed.

(** After any calls that could not seed, a call that can, and any more calls. *)
Lemma rbg_stream_ok h0 e o h1 seed :
  defined_history (h0 ++ (e, o) :: h1) -> no_cleanup (h0 ++ (e, o) :: h1) ->
  Forall op_size_ok (map snd ((e, o) :: h1)) ->
  Forall (fun eo => seeds (fst eo) = false) h0 -> seeds e = true -> e_seed e = Some seed -> env_ok e ->
  exists l r outs0 outs1, rrun LNone rbg0 (h0 ++ (e, o) :: h1) = Some (l, r, outs0 ++ outs1) /\
    length outs0 = length h0 /\ Forall2 served ((e, o) :: h1) outs1 /\
    let d := concat (map o_data outs1) in d = rbg_stream seed (e_time e) (length d).
Proof.
  intros Hdef Hc Hn H0 Hs Es Hok. apply rrun_defined in Hdef.
  destruct (rrun LNone rbg0 (h0 ++ (e, o) :: h1)) as [[[l r] outs]|] eqn:E; [|congruence].
  pose proof (rrun_brun _ _ _ _ _ _ E) as B. rewrite brun_app in B.
  pose proof (unseeded_run h0 H0) as U. pose proof (brun_len h0 rbg0) as L0. destruct (brun rbg0 h0) as [r0 outs0]. cbn [fst snd] in *. subst r0.
  apply Forall_app in Hc. destruct Hc as [_ Hc]. inversion Hc as [|? ? Hc1 Hc2]; subst.
  apply andb_prop in Hs. destruct Hs as [Hs _].
  destruct (seed_call e o seed Es Hs Hok Hc1) as (r' & Eb & Hst).
  assert (Hsd : bytesn 40 seed) by (apply Hok; exact Es).
  destruct (sst_run seed (e_time e) ((e, o) :: h1) 0 r' Hsd Hst Hc Hn) as [S1 S2].
  cbn [brun] in B, S1, S2. rewrite Eb in B. destruct (body r' e o) as [r1 out]. destruct (brun r1 h1) as [r2 outs1].
  cbn [snd] in S1, S2. inversion B; subst. exists l, r, outs0, (out :: outs1). repeat split; auto.
Qed.

Lemma cleanup_then_any e1 e2 o : rrun LNone rbg0 [(e1, RCleanup); (e2, o)] = None.
Proof. cbn [rrun]. rewrite rcall_none. destruct (e_lock e1); reflexivity. Qed.
Lemma bytes_written h e n : (- 2 ^ 31 <= n < 2 ^ 31)%Z ->
  exists outs out, snd (brun rbg0 (h ++ [(e, RBytes n)])) = outs ++ [out] /\
    Z.of_nat (length (o_data out)) = (if 0 <=? n then n else n + 2 ^ 32)%Z.
Proof.
  intros Hn. destruct (brun_last h e (RBytes n)) as (o0 & o & A & _ & _ & B & _). exists o0, o. split; [exact A|]. rewrite B. unfold loop_bound.
  destruct (Z.leb_spec 0 n).
  - rewrite Z.mod_small by lia. lia.
  - replace (n mod 2 ^ 32)%Z with (n + 2 ^ 32)%Z; [lia|]. apply (Z.mod_unique n (2 ^ 32) (-1)); lia.
Qed.
Lemma bytes_negative h e n : (- 2 ^ 31 <= n < 0)%Z ->
  exists outs out, snd (brun rbg0 (h ++ [(e, RBytes n)])) = outs ++ [out] /\ (2 ^ 31 <= Z.of_nat (length (o_data out)))%Z.
Proof.
  intros Hn. destruct (bytes_written h e n) as (o0 & o & A & B); [lia|]. exists o0, o. split; [exact A|]. rewrite B.
  destruct (Z.leb_spec 0 n); lia.
Qed.
