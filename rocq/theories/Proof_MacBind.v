(** Proofs: which changes of the data the MAC of gost89.c notices. *)
From Verif Require Import Base Lib Model_Gost89 Spec_Gost89 Proof_Gost89 Proof_Gost89Modes Spec_Locality Proof_Locality.

#[local] Opaque gost_mac gost_mac_iv gost_init gost_key.

Definition bounded (S : sbox) : Prop := forall i v, (i < 8)%nat -> v < 16 -> S i v < 16.

Lemma F_lt S k x : bounded S -> F S k x < 2 ^ 32.
Proof. intros HS. unfold F. pose proof (subst32_lt S ((x + k) mod 2 ^ 32) HS) as H. unfold rol11. lia. Qed.
Lemma feistel_inj S a b k : feistel S a k = feistel S b k -> a = b.
Proof.
  destruct a as [a1 a2], b as [b1 b2]. unfold feistel. cbn [fst snd]. intros [= H ->].
  f_equal. apply (f_equal (fun z => N.lxor z (F S k b1))) in H.
  rewrite !N.lxor_assoc, N.lxor_nilpotent, !N.lxor_0_r in H. exact H.
Qed.
Lemma feistel_lt S k p : bounded S -> fst p < 2 ^ 32 -> snd p < 2 ^ 32 -> fst (feistel S p k) < 2 ^ 32 /\ snd (feistel S p k) < 2 ^ 32.
Proof. intros HS H1 H2. unfold feistel. cbn [fst snd]. split; [apply lxor_lt; [assumption|apply F_lt, HS]|assumption]. Qed.
Lemma rounds_inj S ks : forall a b, fold_left (feistel S) ks a = fold_left (feistel S) ks b -> a = b.
Proof. induction ks as [|k ks IH]; intros a b H; [exact H|]. cbn [fold_left] in H. apply (feistel_inj S _ _ k), IH, H. Qed.
Lemma rounds_bound S ks : bounded S -> forall a, fst a < 2 ^ 32 -> snd a < 2 ^ 32 ->
  fst (fold_left (feistel S) ks a) < 2 ^ 32 /\ snd (fold_left (feistel S) ks a) < 2 ^ 32.
Proof. intros HS. induction ks as [|k ks IH]; intros a H1 H2; [split; assumption|]. cbn [fold_left]. apply IH; apply feistel_lt; assumption. Qed.

Lemma split64_lt x : bytesn 8 x -> fst (split64 x) < 2 ^ 32 /\ snd (split64 x) < 2 ^ 32.
Proof.
  intros [Hb Hl]. unfold split64. cbn [fst snd].
  pose proof (le_val_lt (firstn 4 x) (bytes_firstn _ _ Hb)) as H1. pose proof (le_val_lt (skipn 4 x) (bytes_skipn _ _ Hb)) as H2.
  rewrite firstn_length, Hl in H1. rewrite skipn_length, Hl in H2. split; assumption.
Qed.
Lemma split64_inj x y : bytesn 8 x -> bytesn 8 y -> split64 x = split64 y -> x = y.
Proof.
  intros [Hb Hl] [Hb' Hl']. unfold split64. intros H. pose proof (f_equal fst H) as H1. pose proof (f_equal snd H) as H2. cbn [fst snd] in H1, H2.
  apply le_val_inj in H1; [|apply bytes_firstn; assumption|apply bytes_firstn; assumption|rewrite !firstn_length; lia].
  apply le_val_inj in H2; [|apply bytes_skipn; assumption|apply bytes_skipn; assumption|rewrite !skipn_length; lia].
  rewrite <- (firstn_skipn 4 x), <- (firstn_skipn 4 y). congruence.
Qed.
Lemma le_bytes4_inj a b : a < 2 ^ 32 -> b < 2 ^ 32 -> le_bytes 4 a = le_bytes 4 b -> a = b.
Proof.
  intros Ha Hb H. apply (f_equal le_val) in H. rewrite !le_val_le_bytes_small in H by assumption. exact H.
Qed.
Lemma app_inj (a b c d : list N) : length a = length c -> a ++ b = c ++ d -> a = c /\ b = d.
Proof. revert c. induction a as [|x a IH]; intros [|y c] Hl H; cbn [length app] in *; try lia; [split; [reflexivity|exact H]|]. injection H as -> H. apply IH in H; [|lia]. destruct H as [-> ->]. split; reflexivity. Qed.
Lemma xorl_zeros_r a n : length a = n -> xorl a (zeros n) = a.
Proof. intros <-. induction a as [|x a IH]; [reflexivity|]. cbn [length zeros repeat xorl]. unfold zeros in IH. rewrite IH, N.lxor_0_r. reflexivity. Qed.

Lemma mac_step_inj S k st blk st' blk' : bounded S -> bytesn 8 st -> bytesn 8 blk -> bytesn 8 st' -> bytesn 8 blk' ->
  mac_step S k st blk = mac_step S k st' blk' -> xorl st blk = xorl st' blk'.
Proof.
  intros HS H1 H2 H3 H4 H. unfold mac_step in H.
  pose proof (xorl_bytesn 8 _ _ H1 H2) as B. pose proof (xorl_bytesn 8 _ _ H3 H4) as B'.
  destruct (rounds_bound S (mac_keys (key_words k)) HS (split64 (xorl st blk))) as [L1 L2]; [apply split64_lt, B|apply split64_lt, B|].
  destruct (rounds_bound S (mac_keys (key_words k)) HS (split64 (xorl st' blk'))) as [L3 L4]; [apply split64_lt, B'|apply split64_lt, B'|].
  apply app_inj in H; [|rewrite !le_bytes_length; reflexivity]. destruct H as [E1 E2].
  apply le_bytes4_inj in E1; [|assumption|assumption]. apply le_bytes4_inj in E2; [|assumption|assumption].
  apply split64_inj; [assumption|assumption|]. apply (rounds_inj S (mac_keys (key_words k))).
  apply injective_projections; assumption.
Qed.
Lemma xorl_inj_l a b c : length a = length c -> length b = length c -> xorl a c = xorl b c -> a = b.
Proof. intros H1 H2 H. rewrite <- (xorl_cancel a c), <- (xorl_cancel b c) by lia. now rewrite H. Qed.
Lemma fold_mac_inj S k ls : bounded S -> Forall (bytesn 8) ls -> forall a b, bytesn 8 a -> bytesn 8 b ->
  fold_left (mac_step S k) ls a = fold_left (mac_step S k) ls b -> a = b.
Proof.
  intros HS. induction 1 as [|x ls Hx _ IH]; intros a b Ha Hb H; [exact H|]. cbn [fold_left] in H.
  apply IH in H; [|apply mac_step_bytesn|apply mac_step_bytesn].
  apply mac_step_inj in H; try assumption. apply (xorl_inj_l a b x); [rewrite (proj2 Ha), (proj2 Hx)|rewrite (proj2 Hb), (proj2 Hx)|exact H]; reflexivity.
Qed.
Lemma fold_mac_one S k A x x' T iv : bounded S -> Forall (bytesn 8) T -> bytesn 8 iv -> bytesn 8 x -> bytesn 8 x' ->
  fold_left (mac_step S k) (A ++ x :: T) iv = fold_left (mac_step S k) (A ++ x' :: T) iv -> x = x'.
Proof.
  intros HS HT Hiv Hx Hx' H. rewrite !fold_left_app in H. cbn [fold_left] in H.
  pose proof (fold_mac_bytesn S k A iv Hiv) as Hst. set (st := fold_left (mac_step S k) A iv) in *. clearbody st.
  apply fold_mac_inj in H; [|assumption|assumption|apply mac_step_bytesn|apply mac_step_bytesn].
  apply mac_step_inj in H; try assumption. rewrite (xorl_comm st x), (xorl_comm st x') in H.
  apply (xorl_inj_l x x' st); [rewrite (proj2 Hx), (proj2 Hst)|rewrite (proj2 Hx'), (proj2 Hst)|exact H]; reflexivity.
Qed.

(** ** the blocks of the data *)
Definition pad (b : list N) : list N := b ++ zeros (8 - length b).
Definition tail1 (n : nat) : list (list N) := if (n =? 1)%nat then [zeros 8] else [].
Lemma mac_blocks_eq data : mac_blocks data = map pad (chunks 8 data) ++ tail1 (length (chunks 8 data)).
Proof. unfold mac_blocks. fold pad. destruct (chunks 8 data) as [|a [|b l]]; cbn [map length tail1 Nat.eqb app]; rewrite ?app_nil_r; reflexivity. Qed.
Lemma zeros_bytesn n : bytesn n (zeros n).
Proof. split; [apply Forall_forall; intros x Hx; apply repeat_spec in Hx; subst x; reflexivity|apply repeat_length]. Qed.
Lemma pad_bytesn b : bytes b -> (length b <= 8)%nat -> bytesn 8 (pad b).
Proof. intros Hb Hl. unfold pad. split; [apply bytes_app; [assumption|apply zeros_bytesn]|]. rewrite app_length, (proj2 (zeros_bytesn _)). lia. Qed.
Lemma pad_inj a b : length a = length b -> pad a = pad b -> a = b.
Proof. unfold pad. intros Hl H. rewrite Hl in H. now apply app_inv_tail in H. Qed.
Lemma chunks_all n : forall f l, (length l <= f)%nat -> (0 < n)%nat -> bytes l -> Forall (fun b => bytes b /\ (length b <= n)%nat) (chunks n l).
Proof.
  induction f as [|f IH]; intros l Hf Hn Hb; [destruct l; [rewrite chunks_nil; constructor|cbn in Hf; lia]|].
  destruct l as [|x t]; [rewrite chunks_nil; constructor|]. rewrite chunks_cons by (auto; discriminate). constructor.
  - split; [apply bytes_firstn, Hb|rewrite firstn_length; lia].
  - apply IH; [rewrite skipn_length; cbn [length] in *; lia|assumption|apply bytes_skipn, Hb].
Qed.
Lemma pads_bytesn l : bytes l -> Forall (bytesn 8) (map pad (chunks 8 l)).
Proof.
  intros Hb. apply Forall_forall. intros x Hx. apply in_map_iff in Hx. destruct Hx as (y & <- & Hy).
  pose proof (chunks_all 8 _ l (Nat.le_refl _) ltac:(lia) Hb) as H. rewrite Forall_forall in H. destruct (H y Hy). apply pad_bytesn; assumption.
Qed.
Lemma tail1_bytesn n : Forall (bytesn 8) (tail1 n).
Proof. unfold tail1. destruct (n =? 1)%nat; [constructor; [apply zeros_bytesn|]|]; constructor. Qed.
Lemma chunks_mid q a x t : length a = (q * 8)%nat -> x <> [] -> (length x = 8%nat \/ ((length x <= 8)%nat /\ t = [])) ->
  chunks 8 (a ++ x ++ t) = chunks 8 a ++ x :: chunks 8 t.
Proof.
  intros Ha Hx Hc. rewrite (@chunks_map_app q 8 a (x ++ t)) by (auto; lia). f_equal.
  destruct Hc as [H8|[Hs ->]]; [apply chunks_app; [lia|exact H8]|].
  rewrite app_nil_r, chunks_cons by (auto; lia). rewrite firstn_all2, skipn_all2 by lia. reflexivity.
Qed.

(** ** a change inside one block *)
Lemma mac_change S k iv i d d' : bounded S -> bytesn 8 iv -> bytes d -> bytes d' ->
  differ_in_block i d d' -> d <> d' -> mac_full S k iv d <> mac_full S k iv d'.
Proof.
  intros HS Hiv Hd Hd' HD Hne H. apply Hne. clear Hne. pose proof HD as [HL HN].
  destruct (Nat.le_gt_cases (length d) (8 * i)) as [Hsmall|Hbig].
  { apply nth_ext with (d := 0) (d' := 0); [exact HL|]. intros n Hn. apply HN. intros Hq.
    pose proof (Nat.div_mod n 8 ltac:(lia)) as Hm. lia. }
  set (a := firstn (8 * i) d). set (x := firstn 8 (skipn (8 * i) d)). set (t := skipn 8 (skipn (8 * i) d)).
  set (x' := firstn 8 (skipn (8 * i) d')).
  assert (Ed : d = a ++ x ++ t) by (unfold a, x, t; rewrite !firstn_skipn; reflexivity).
  assert (Ea : firstn (8 * i) d' = a).
  { apply nth_ext with (d := 0) (d' := 0); [unfold a; rewrite !firstn_length; lia|]. intros n Hn. rewrite firstn_length in Hn.
    unfold a. rewrite !nth_firstn_lt by lia. symmetry. apply HN. intros Hq. pose proof (Nat.div_mod n 8 ltac:(lia)) as Hm. lia. }
  assert (Et : skipn 8 (skipn (8 * i) d') = t).
  { unfold t. apply nth_ext with (d := 0) (d' := 0); [rewrite !skipn_length; lia|]. intros n Hn.
    rewrite !nth_skipn. symmetry. apply HN. intros Hq.
    pose proof (Nat.div_mod (8 * i + (8 + n)) 8 ltac:(lia)) as Hm. pose proof (Nat.mod_upper_bound (8 * i + (8 + n)) 8 ltac:(lia)). lia. }
  assert (Ed' : d' = a ++ x' ++ t) by (rewrite <- Ea, <- Et; unfold x'; rewrite !firstn_skipn; reflexivity).
  assert (La : length a = (i * 8)%nat) by (unfold a; rewrite firstn_length; lia).
  assert (Lx : length x = Nat.min 8 (length d - 8 * i)) by (unfold x; rewrite firstn_length, skipn_length; reflexivity).
  assert (Lx' : length x' = length x) by (unfold x', x; rewrite !firstn_length, !skipn_length; lia).
  assert (Lt : length t = (length d - 8 * i - 8)%nat) by (unfold t; rewrite !skipn_length; reflexivity).
  assert (Bx : bytes x) by (apply bytes_firstn, bytes_skipn, Hd). assert (Bx' : bytes x') by (apply bytes_firstn, bytes_skipn, Hd').
  assert (Bt : bytes t) by (apply bytes_skipn, bytes_skipn, Hd).
  assert (Hc : length x = 8%nat \/ ((length x <= 8)%nat /\ t = [])).
  { destruct (Nat.eq_dec (length x) 8) as [|Hn8]; [left; assumption|right]. split; [lia|]. destruct t; [reflexivity|cbn [length] in Lt; lia]. }
  assert (Nx : x <> []) by (intros E0; rewrite E0 in Lx; cbn [length] in Lx; lia).
  assert (Nx' : x' <> []) by (intros E0; rewrite E0 in Lx'; cbn [length] in Lx'; lia).
  clearbody a x x' t. subst d d'. f_equal. f_equal. apply pad_inj; [congruence|].
  unfold mac_full in H. rewrite !mac_blocks_eq in H.
  rewrite (chunks_mid i a x t), (chunks_mid i a x' t) in H by (try assumption; rewrite ?Lx'; assumption).
  rewrite !app_length in H. cbn [length] in H. rewrite !map_app in H. cbn [map] in H. rewrite <- !app_assoc in H. cbn [app] in H.
  apply fold_mac_one in H; try assumption; try (apply pad_bytesn; [assumption|lia]).
  apply Forall_app. split; [apply pads_bytesn, Bt|apply tail1_bytesn].
Qed.

(** ** zeros at the end *)
Lemma zeros_add a b : zeros (a + b) = zeros a ++ zeros b.
Proof. unfold zeros. apply repeat_app. Qed.
Lemma mac_zeros S k iv d j : (length d mod 8 <> 0)%nat -> (length d mod 8 + j <= 8)%nat ->
  mac_full S k iv (d ++ zeros j) = mac_full S k iv d.
Proof.
  intros Hm Hj. set (q := (length d / 8)%nat).
  assert (Hdm : (length d = 8 * q + length d mod 8)%nat) by (apply Nat.div_mod; lia).
  set (a := firstn (8 * q) d). set (x := skipn (8 * q) d).
  assert (Ed : d = a ++ x) by (unfold a, x; rewrite firstn_skipn; reflexivity).
  assert (La : length a = (q * 8)%nat) by (unfold a; rewrite firstn_length; lia).
  assert (Lx : length x = (length d mod 8)%nat) by (unfold x; rewrite skipn_length; lia).
  assert (Lz : length (zeros j) = j) by apply repeat_length.
  unfold mac_full. f_equal. rewrite !mac_blocks_eq.
  assert (C1 : chunks 8 d = chunks 8 a ++ [x]).
  { rewrite Ed at 1. rewrite <- (app_nil_r x) at 1. rewrite (chunks_mid q a x []); [reflexivity|exact La| |right; split; [lia|reflexivity]].
    intros E0. rewrite E0 in Lx. cbn [length] in Lx. lia. }
  assert (C2 : chunks 8 (d ++ zeros j) = chunks 8 a ++ [x ++ zeros j]).
  { rewrite Ed at 1. rewrite <- app_assoc. rewrite <- (app_nil_r (x ++ zeros j)) at 1.
    rewrite (chunks_mid q a (x ++ zeros j) []); [reflexivity|exact La| |right; split; [rewrite app_length; lia|reflexivity]].
    intros E0. apply app_eq_nil in E0. destruct E0 as [E0 _]. rewrite E0 in Lx. cbn [length] in Lx. lia. }
  rewrite C1, C2. rewrite !map_app, !app_length. cbn [length map]. f_equal. f_equal. f_equal.
  unfold pad. rewrite app_length, Lz, <- app_assoc, <- zeros_add. f_equal. f_equal. lia.
Qed.
Lemma mac_one_block S k iv b : length b = 8%nat -> mac_full S k iv (b ++ zeros 8) = mac_full S k iv b.
Proof.
  intros Hb. unfold mac_full. f_equal. rewrite !mac_blocks_eq.
  assert (C1 : chunks 8 b = [b]) by (rewrite <- (app_nil_r b) at 1; rewrite chunks_app by lia; now rewrite chunks_nil).
  rewrite chunks_app by lia. rewrite C1. reflexivity.
Qed.

(** ** chaining *)
Lemma chunks_count q : forall a, length a = (q * 8)%nat -> length (chunks 8 a) = q.
Proof.
  induction q as [|q IH]; intros a Ha; [destruct a; [reflexivity|cbn in Ha; lia]|].
  rewrite chunks_cons by (lia || (destruct a; [cbn in Ha; lia|discriminate])). cbn [length]. f_equal. apply IH. rewrite skipn_length. lia.
Qed.
Lemma chunks_two b : (8 < length b)%nat -> (2 <= length (chunks 8 b))%nat.
Proof.
  intros Hb. rewrite chunks_cons by (lia || (destruct b; [cbn in Hb; lia|discriminate])).
  rewrite chunks_cons; [cbn [length]; lia|lia|]. intros E0. apply (f_equal (@length _)) in E0. rewrite skipn_length in E0. cbn [length] in E0. lia.
Qed.
Lemma mac_chain S k iv q a b : length a = (q * 8)%nat -> (2 <= q)%nat -> (8 < length b)%nat ->
  mac_full S k iv (a ++ b) = mac_full S k (mac_full S k iv a) b.
Proof.
  intros Ha Hq Hb. unfold mac_full. rewrite !mac_blocks_eq. rewrite (@chunks_map_app q 8 a b) by (auto; lia).
  rewrite app_length, (chunks_count q a Ha). pose proof (chunks_two b Hb) as Hc.
  assert (T : forall n, (2 <= n)%nat -> tail1 n = []) by (intros n Hn; unfold tail1; destruct (Nat.eqb_spec n 1); [lia|reflexivity]).
  rewrite !T by lia. rewrite !app_nil_r, map_app, fold_left_app. reflexivity.
Qed.
Lemma mac_step_same S k a b c d : xorl a b = xorl c d -> mac_step S k a b = mac_step S k c d.
Proof. intros X. unfold mac_step. rewrite X. reflexivity. Qed.
Lemma mac_full_step S k iv iv' d d' x y l : mac_blocks d = x :: l -> mac_blocks d' = y :: l -> mac_step S k iv x = mac_step S k iv' y ->
  mac_full S k iv d = mac_full S k iv' d'.
Proof. intros H1 H2 H3. unfold mac_full. rewrite H1, H2. cbn [fold_left]. rewrite H3. reflexivity. Qed.
Lemma mac_absorb S k iv b : bytesn 8 iv -> (8 < length b)%nat ->
  mac_full S k iv (xorl (firstn 8 b) iv ++ skipn 8 b) = mac_full S k (zeros 8) b.
Proof.
  intros Hiv Hb. assert (Lf : length (firstn 8 b) = 8%nat) by (rewrite firstn_length; lia).
  assert (Lx : length (xorl (firstn 8 b) iv) = 8%nat) by (rewrite xorl_length, Lf, (proj2 Hiv); reflexivity).
  assert (P8 : forall l, length l = 8%nat -> pad l = l) by (intros l Hl; unfold pad; rewrite Hl; apply app_nil_r).
  assert (X : xorl iv (xorl (firstn 8 b) iv) = xorl (zeros 8) (firstn 8 b)).
  { rewrite (xorl_comm iv), xorl_cancel by (rewrite Lf, (proj2 Hiv); lia). rewrite xorl_comm. symmetry. apply xorl_zeros_r, Lf. }
  pose proof (mac_step_same S k _ _ _ _ X) as St.
  assert (C1 : mac_blocks (xorl (firstn 8 b) iv ++ skipn 8 b) = xorl (firstn 8 b) iv :: map pad (chunks 8 (skipn 8 b)) ++ tail1 (1 + length (chunks 8 (skipn 8 b)))).
  { rewrite mac_blocks_eq, (chunks_app 8 (xorl _ _)) by (exact Lx || lia). cbn [map]. rewrite P8 by exact Lx. reflexivity. }
  assert (C2 : mac_blocks b = firstn 8 b :: map pad (chunks 8 (skipn 8 b)) ++ tail1 (1 + length (chunks 8 (skipn 8 b)))).
  { rewrite mac_blocks_eq, (chunks_cons 8 b) by (lia || (destruct b; [cbn in Hb; lia|discriminate])). cbn [map]. rewrite P8 by exact Lf. reflexivity. }
  exact (mac_full_step S k _ _ _ _ _ _ _ C1 C2 St).
Qed.

(** ** API statements *)
Lemma sb_bounded b : sb_wf b -> bounded (sb_fun b).
Proof. intros H i v Hi _. apply sb_fun_lt; assumption. Qed.
Lemma mac_full_bytesn S k iv d : bytesn 8 iv -> bytesn 8 (mac_full S k iv d).
Proof. intros H. apply fold_mac_bytesn, H. Qed.

Lemma MacOk_inj a b : MacOk a = MacOk b -> a = b.
Proof. intros [= H]. exact H. Qed.
Lemma api_change c0 b rnd k fuel iv d d' i : sb_wf b -> mask_wf rnd -> bytesn 32 k -> bytesn 8 iv -> bytes d -> bytes d' ->
  N.of_nat (length d) < 2 ^ 32 - 8 -> (length d / 8 < fuel)%nat -> differ_in_block i d d' -> d <> d' ->
  let c := gost_key rnd (gost_init c0 (Some b)) k in
  gost_mac fuel c 64 d <> gost_mac fuel c 64 d' /\ gost_mac_iv fuel c 64 iv d <> gost_mac_iv fuel c 64 iv d'.
Proof.
  intros Hb Hr Hk Hiv Hd Hd' Hl Hf HD Hne c. pose proof (proj1 HD) as HL. unfold c.
  change 64%Z with (8 * Z.of_nat 8)%Z.
  rewrite !api_mac, !api_mac_iv by (assumption || (rewrite <- HL; assumption) || lia).
  assert (F8 : forall v x, bytesn 8 v -> firstn 8 (mac_full (sb_fun b) k v x) = mac_full (sb_fun b) k v x)
    by (intros v x Hv; apply firstn_all2; rewrite (proj2 (mac_full_bytesn _ _ _ _ Hv)); lia).
  split; intros H; apply MacOk_inj in H; rewrite !F8 in H by auto using zeros_bytesn; revert H;
    apply (mac_change (sb_fun b) k _ i); auto using sb_bounded, zeros_bytesn.
Qed.
Lemma api_zeros c0 b rnd k fuel nb d j : sb_wf b -> mask_wf rnd -> bytesn 32 k -> bytes d ->
  N.of_nat (length d + j) < 2 ^ 32 - 8 -> ((length d + j) / 8 < fuel)%nat -> (nb <= 8)%nat ->
  (length d mod 8 <> 0)%nat -> (length d mod 8 + j <= 8)%nat ->
  let c := gost_key rnd (gost_init c0 (Some b)) k in
  gost_mac fuel c (8 * Z.of_nat nb) (d ++ zeros j) = gost_mac fuel c (8 * Z.of_nat nb) d.
Proof.
  intros Hb Hr Hk Hd Hl Hf Hnb Hm Hj c. unfold c.
  assert (Lz : length (d ++ zeros j) = (length d + j)%nat) by (rewrite app_length; f_equal; apply repeat_length).
  assert (Hq : (length d / 8 < fuel)%nat) by (pose proof (Nat.div_le_mono (length d) (length d + j) 8 ltac:(lia) ltac:(lia)); lia).
  rewrite !api_mac by (first [assumption|rewrite Lz; assumption|lia|apply bytes_app; [assumption|apply zeros_bytesn]]).
  now rewrite mac_zeros.
Qed.
Lemma api_one_block c0 b rnd k fuel nb d : sb_wf b -> mask_wf rnd -> bytesn 32 k -> bytesn 8 d -> (2 < fuel)%nat -> (nb <= 8)%nat ->
  let c := gost_key rnd (gost_init c0 (Some b)) k in
  gost_mac fuel c (8 * Z.of_nat nb) (d ++ zeros 8) = gost_mac fuel c (8 * Z.of_nat nb) d.
Proof.
  intros Hb Hr Hk [Hd Hl] Hf Hnb c. unfold c.
  assert (Lz : length (d ++ zeros 8) = 16%nat) by (rewrite app_length, Hl; reflexivity).
  rewrite !api_mac by (first [assumption|rewrite ?Lz, ?Hl; cbn; lia|apply bytes_app; [assumption|apply zeros_bytesn]]).
  now rewrite mac_one_block.
Qed.
Lemma api_chain c0 b rnd k fuel nb q a d m : sb_wf b -> mask_wf rnd -> bytesn 32 k -> bytes a -> bytes d ->
  N.of_nat (length a + length d) < 2 ^ 32 - 8 -> ((length a + length d) / 8 < fuel)%nat -> (nb <= 8)%nat ->
  length a = (8 * q)%nat -> (2 <= q)%nat -> (8 < length d)%nat ->
  let c := gost_key rnd (gost_init c0 (Some b)) k in
  gost_mac fuel c 64 a = MacOk m ->
  gost_mac fuel c (8 * Z.of_nat nb) (a ++ d) = gost_mac_iv fuel c (8 * Z.of_nat nb) m d /\
  gost_mac fuel c (8 * Z.of_nat nb) (a ++ xorl (firstn 8 d) m ++ skipn 8 d) = gost_mac fuel c (8 * Z.of_nat nb) d.
Proof.
  intros Hb Hr Hk Ha Hd Hl Hf Hnb Hq Hq2 Hd8 c. unfold c. change 64%Z with (8 * Z.of_nat 8)%Z.
  assert (F1 : (length a / 8 < fuel)%nat) by (pose proof (Nat.div_le_mono (length a) (length a + length d) 8 ltac:(lia) ltac:(lia)); lia).
  assert (F2 : (length d / 8 < fuel)%nat) by (pose proof (Nat.div_le_mono (length d) (length a + length d) 8 ltac:(lia) ltac:(lia)); lia).
  rewrite (api_mac c0 b rnd k fuel 8 a) by (assumption || lia). intros Em. apply MacOk_inj in Em.
  rewrite firstn_all2 in Em by (rewrite (proj2 (mac_full_bytesn _ _ _ _ (zeros_bytesn 8))); lia).
  assert (Bm : bytesn 8 m) by (subst m; apply mac_full_bytesn, zeros_bytesn).
  assert (Bx : bytes (xorl (firstn 8 d) m)) by (apply xorl_bytes; [apply bytes_firstn, Hd|apply Bm]).
  assert (Lx : length (xorl (firstn 8 d) m) = 8%nat) by (rewrite xorl_length, firstn_length, (proj2 Bm); lia).
  assert (Ly : length (xorl (firstn 8 d) m ++ skipn 8 d) = length d) by (rewrite app_length, Lx, skipn_length; lia).
  assert (By : bytes (xorl (firstn 8 d) m ++ skipn 8 d)) by (apply bytes_app; [exact Bx|apply bytes_skipn, Hd]).
  split.
  - rewrite api_mac, api_mac_iv by (first [assumption|rewrite ?app_length; first [assumption|lia]|apply bytes_app; assumption]).
    rewrite (mac_chain _ _ _ q a) by lia. rewrite Em. reflexivity.
  - rewrite (api_mac c0 b rnd k fuel nb (a ++ _)), (api_mac c0 b rnd k fuel nb d)
      by (first [assumption|rewrite ?app_length, ?Lx, ?skipn_length; first [assumption|lia|replace (length a + (8 + (length d - 8)))%nat with (length a + length d)%nat by lia; assumption]|apply bytes_app; assumption]).
    rewrite (mac_chain _ _ _ q a) by (rewrite ?Ly; lia). rewrite Em. rewrite mac_absorb by assumption. reflexivity.
Qed.
