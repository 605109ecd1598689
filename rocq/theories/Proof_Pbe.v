(** HMAC and PBKDF2 with the digest of the engine. *)
From Coq Require Import ZArith List Lia.
Import ListNotations.
From Verif Require Import Base Lib Model_Gost89 Spec_Gost89 Model_Params Spec_Params Model_Cipher Model_Hash Spec_Hash Spec_Md Model_Pbe Spec_Pbe Proof_Md Proof_Key6.
Open Scope N_scope.

Lemma inv_ext a b st : (forall q, a q = b q) -> inv a st -> inv b st.
Proof. intros E H q. rewrite <- E. apply H. Qed.
Lemma default64 : bytesn 64 default_sbox.
Proof. split; [repeat constructor|reflexivity]. Qed.
Lemma sset_twice a p u v q : sset (sset a p u) p v q = sset a p v q.
Proof. unfold sset. destruct (Nat.eqb q p); reflexivity. Qed.
Lemma init_ok a st p : inv a st -> exists st', evp_md_init st p = Some st' /\ inv (sset a p (Active default_sbox [])) st'.
Proof.
  intros Hi. unfold evp_md_init. destruct (md_d st p) as [h|] eqn:E.
  - destruct (sim a st (MInit p None) Hi) as (st' & E1 & H1); [cbn; split; [intros X; specialize (Hi p); rewrite X in Hi; cbn in Hi; destruct Hi; congruence|apply default64]|].
    cbn [md_step] in E1. destruct (md_init st p None) as [s|] eqn:E2; [|discriminate]. injection E1 as <-. exists s. auto.
  - destruct (sim a st (MAlloc p zero_dctx zero_ctx) Hi I) as (st1 & E1 & H1). cbn [md_step spec_op fst snd] in E1, H1. injection E1 as <-.
    destruct (sim _ _ (MInit p None) H1) as (st' & E2 & H2); [cbn; split; [rewrite sset_same; discriminate|apply default64]|].
    cbn [md_step] in E2. destruct (md_init _ p None) as [s|] eqn:E3; [|discriminate]. injection E2 as <-. exists s. split; [reflexivity|]. cbn [spec_op fst selected] in H2. eapply inv_ext; [|exact H2]. intros q. apply sset_twice.
Qed.
Lemma update_ok a st p sb m d : inv a st -> a p = Active sb m -> bytes d -> hashable (length m + length d) -> exists st', md_update st p d = Some st' /\ inv (sset a p (Active sb (m ++ d))) st'.
Proof.
  intros Hi E B L. destruct (sim a st (MUpdate p d) Hi) as (st' & E1 & H1); [cbn; rewrite E; auto|]. cbn [md_step spec_op fst snd] in E1, H1. rewrite E in H1. destruct (md_update st p d) as [s|]; [|discriminate]. injection E1 as <-. exists s. auto.
Qed.
Lemma final_ok a st p sb m : inv a st -> a p = Active sb m -> exists st', evp_md_final st p = Some (st', digest (packed_sbox sb) m) /\ inv (sset a p Raw) st'.
Proof.
  intros Hi E. destruct (sim a st (MFinal p) Hi) as (st1 & E1 & H1); [cbn; rewrite E; exact I|]. cbn [md_step spec_op fst snd] in E1, H1. rewrite E in E1. unfold evp_md_final. destruct (md_final st p) as [[s d]|]; [|discriminate].
  injection E1 as -> ->. destruct (sim a st1 (MCleanup p) H1 I) as (st2 & E2 & H2). cbn [md_step spec_op fst snd] in E2, H2. injection E2 as <-. rewrite E in H2. eexists. split; [reflexivity|exact H2].
Qed.
Lemma copy_ok a st to from sb m : inv a st -> a from = Active sb m -> to <> from -> exists st', evp_md_copy st to from = Some st' /\ inv (sset a to (Active sb m)) st'.
Proof.
  intros Hi E NE. destruct (present_mem _ _ from Hi) as [(h & Eh) (c & Ec)]; [rewrite E; discriminate|]. unfold evp_md_copy. rewrite Eh, Ec.
  destruct (sim a st (MAlloc to h c) Hi I) as (st1 & E1 & H1). cbn [md_step spec_op fst snd] in E1, H1. injection E1 as <-.
  destruct (sim _ _ (MCopy to from) H1 NE) as (st2 & E2 & H2). cbn [md_step spec_op fst snd] in E2, H2. injection E2 as <-. eexists. split; [reflexivity|].
  rewrite sset_same, sset_other in H2 by congruence. rewrite E in H2. eapply inv_ext; [|exact H2]. intros q. apply sset_twice.
Qed.

(** The state of an HMAC context in which [m] was written. *)
Definition block_of (K : list N) : list N := let K := if (32 <? length K)%nat then dstu34311 K else K in K ++ zeros (32 - length K).
Definition ipad (K : list N) : list N := map (N.lxor 0x36) (block_of K).
Definition opad (K : list N) : list N := map (N.lxor 0x5c) (block_of K).
Definition keyed (a : slots) (x : hmac_ctx) (K : list N) : Prop := a (hm_i x) = Active default_sbox (ipad K) /\ a (hm_o x) = Active default_sbox (opad K).
Definition apart3 (x : hmac_ctx) : Prop := NoDup [hm_md x; hm_i x; hm_o x].
Definition cells3 (x : hmac_ctx) : list nat := [hm_md x; hm_i x; hm_o x].
Definition same_but (l : list nat) (a b : slots) : Prop := forall q, ~ In q l -> b q = a q.

Lemma hmac_is K m : hmac_dstu K m = dstu34311 (opad K ++ dstu34311 (ipad K ++ m)).
Proof. reflexivity. Qed.
Lemma lxor_byte b x : b < 256 -> x < 256 -> N.lxor b x < 256.
Proof. intros H1 H2. exact (lxor_lt b x 8 H1 H2). Qed.
Lemma bytes_lxor b l : b < 256 -> bytes l -> bytes (map (N.lxor b) l).
Proof. intros Hb H. apply Forall_map. eapply Forall_impl; [|exact H]. intros x Hx. apply lxor_byte; assumption. Qed.
Lemma dstu_bytesn m : bytesn 32 (dstu34311 m).
Proof. apply digest_bytesn. Qed.
Lemma block_bytesn K : bytes K -> bytesn 32 (block_of K).
Proof.
  intros B. unfold block_of. set (k := if (32 <? length K)%nat then dstu34311 K else K).
  assert (H : bytes k /\ (length k <= 32)%nat).
  { unfold k. destruct (Nat.ltb_spec 32 (length K)); [destruct (dstu_bytesn K) as [? ->]; auto|auto]. }
  destruct H as [Hb Hl]. split; [apply bytes_app; [exact Hb|apply bytes_zeros]|]. rewrite app_length. unfold zeros. rewrite repeat_length. lia.
Qed.
Lemma pad_bytesn K b : b < 256 -> bytes K -> bytesn 32 (map (N.lxor b) (block_of K)).
Proof. intros Hb H. destruct (block_bytesn K H) as [B L]. split; [apply bytes_lxor; assumption|rewrite map_length; exact L]. Qed.
Lemma pad_cut b k : (length k <= 32)%nat -> firstn md_block_size (map (N.lxor b) (k ++ zeros (max_cblock - length k))) = map (N.lxor b) (k ++ zeros (32 - length k)).
Proof.
  intros L. rewrite firstn_map. f_equal. unfold md_block_size, max_cblock. rewrite firstn_app, firstn_all2 by exact L. f_equal. unfold zeros.
  replace (144 - length k)%nat with ((32 - length k) + 112)%nat by lia. rewrite repeat_app, firstn_app, repeat_length, Nat.sub_diag, firstn_O, app_nil_r. apply firstn_all2. rewrite repeat_length. lia.
Qed.
Lemma hash_small n : (n < 2000)%nat -> hashable n.
Proof. intros H. unfold hashable. change (2 ^ 60) with 1152921504606846976. lia. Qed.
Lemma pad_ok a st p b k : inv a st -> b < 256 -> bytes k -> (length k <= 32)%nat ->
  exists st', hmac_pad st p b (k ++ zeros (max_cblock - length k)) = Some st' /\ inv (sset a p (Active default_sbox (map (N.lxor b) (k ++ zeros (32 - length k))))) st'.
Proof.
  intros Hi Hb B L. unfold hmac_pad. destruct (init_ok a st p Hi) as (st1 & -> & H1). rewrite pad_cut by exact L.
  assert (Bz : bytes (k ++ zeros (32 - length k))) by (apply bytes_app; [exact B|apply bytes_zeros]).
  destruct (update_ok _ st1 p default_sbox [] (map (N.lxor b) (k ++ zeros (32 - length k))) H1) as (st2 & -> & H2); [apply sset_same|apply bytes_lxor; assumption| |].
  - apply hash_small. rewrite map_length, app_length. unfold zeros. rewrite repeat_length. cbn [length]. lia.
  - exists st2. split; [reflexivity|]. eapply inv_ext; [|exact H2]. intros q. apply sset_twice.
Qed.
Lemma hmac_init_ok a st x K : inv a st -> apart3 x -> bytes K -> hashable (length K) ->
  exists st' b, hmac_init st x K = Some st' /\ inv b st' /\ keyed b x K /\ b (hm_md x) = Active default_sbox (ipad K) /\ same_but (cells3 x) a b.
Proof.
  intros Hi D B L. unfold hmac_init.
  assert (Hk : exists st1 b1 k, hmac_key st x K = Some (st1, k) /\ inv b1 st1 /\ same_but (cells3 x) a b1 /\ bytes k /\ (length k <= 32)%nat /\ k ++ zeros (32 - length k) = block_of K).
  { unfold hmac_key, block_of. change md_block_size with 32%nat. destruct (Nat.ltb_spec 32 (length K)) as [Q|Q].
    - destruct (init_ok a st (hm_md x) Hi) as (st1 & -> & H1). destruct (update_ok _ st1 (hm_md x) default_sbox [] K H1) as (st2 & -> & H2); [apply sset_same|exact B|exact L|].
      destruct (final_ok _ st2 (hm_md x) default_sbox K H2) as (st3 & E3 & H3); [rewrite sset_same; reflexivity|]. fold (dstu34311 K) in E3. rewrite E3. eexists st3, _, _. split; [reflexivity|]. split; [exact H3|].
      destruct (dstu_bytesn K) as [B1 L1]. split; [|split; [exact B1|split; [lia|reflexivity]]]. intros q Hq. rewrite !sset_other; [reflexivity|..]; intros ->; apply Hq; left; reflexivity.
    - exists st, a, K. split; [reflexivity|]. split; [exact Hi|]. split; [intros q _; reflexivity|]. auto. }
  destruct Hk as (st1 & b1 & k & -> & H1 & S1 & Bk & Lk & Ek). cbv zeta.
  destruct (pad_ok b1 st1 (hm_i x) 0x36 k H1 ltac:(reflexivity) Bk Lk) as (st2 & -> & H2). destruct (pad_ok _ st2 (hm_o x) 0x5c k H2 ltac:(reflexivity) Bk Lk) as (st3 & -> & H3). rewrite Ek in *. fold (ipad K) (opad K) in *.
  unfold apart3 in D. inversion D as [|? ? D1 D2]; subst. inversion D2 as [|? ? D3 D4]; subst.
  assert (N1 : hm_md x <> hm_i x) by (intros X; apply D1; left; auto). assert (N2 : hm_md x <> hm_o x) by (intros X; apply D1; right; left; auto). assert (N3 : hm_i x <> hm_o x) by (intros X; apply D3; left; auto).
  destruct (copy_ok _ st3 (hm_md x) (hm_i x) default_sbox (ipad K) H3) as (st4 & -> & H4); [rewrite sset_other, sset_same by congruence; reflexivity|exact N1|].
  eexists st4, _. split; [reflexivity|]. split; [exact H4|]. split; [split|split].
  - rewrite sset_other, sset_other, sset_same by congruence. reflexivity.
  - rewrite sset_other, sset_same by congruence. reflexivity.
  - apply sset_same.
  - intros q Hq. cbn in Hq. rewrite !sset_other by (intros ->; tauto). apply S1. exact Hq.
Qed.
Lemma hmac_updates_ok x ds : forall a st m, inv a st -> a (hm_md x) = Active default_sbox m -> Forall bytes ds -> hashable (length (m ++ concat ds)) ->
  exists st', hmac_updates st x ds = Some st' /\ inv (sset a (hm_md x) (Active default_sbox (m ++ concat ds))) st'.
Proof.
  induction ds as [|d ds IH]; intros a st m Hi E B L.
  - exists st. split; [reflexivity|]. cbn [concat]. rewrite app_nil_r. eapply inv_ext; [|exact Hi]. intros q. unfold sset. destruct (Nat.eqb_spec q (hm_md x)) as [->|]; [exact E|reflexivity].
  - cbn [hmac_updates]. inversion B as [|? ? Bd Bds]; subst. cbn [concat] in L. destruct (update_ok a st (hm_md x) default_sbox m d Hi E) as (st1 & -> & H1); [assumption|revert L; unfold hashable; rewrite !app_length; lia|].
    destruct (IH _ st1 (m ++ d) H1) as (st2 & E2 & H2); [apply sset_same|assumption|rewrite <- app_assoc; exact L|]. exists st2. split; [exact E2|]. cbn [concat]. rewrite app_assoc. eapply inv_ext; [|exact H2]. intros q. apply sset_twice.
Qed.
Lemma hmac_final_ok a st x K m : inv a st -> apart3 x -> bytes K -> a (hm_o x) = Active default_sbox (opad K) -> a (hm_md x) = Active default_sbox (ipad K ++ m) ->
  exists st', hmac_final st x = Some (st', hmac_dstu K m) /\ inv (sset a (hm_md x) Raw) st'.
Proof.
  intros Hi D B Ho Hm. unfold hmac_final. destruct (final_ok a st (hm_md x) default_sbox _ Hi Hm) as (st1 & -> & H1). fold (dstu34311 (ipad K ++ m)).
  unfold apart3 in D. inversion D as [|? ? D1 D2]; subst. assert (N2 : hm_md x <> hm_o x) by (intros X; apply D1; right; left; auto).
  destruct (copy_ok _ st1 (hm_md x) (hm_o x) default_sbox (opad K) H1) as (st2 & -> & H2); [rewrite sset_other by congruence; exact Ho|exact N2|].
  destruct (dstu_bytesn (ipad K ++ m)) as [Bd Ld]. destruct (pad_bytesn K 0x5c ltac:(reflexivity) B) as [Bo Lo]. fold (opad K) in Bo, Lo.
  destruct (update_ok _ st2 (hm_md x) default_sbox (opad K) (dstu34311 (ipad K ++ m)) H2) as (st3 & -> & H3); [apply sset_same|exact Bd|apply hash_small; lia|].
  destruct (final_ok _ st3 (hm_md x) default_sbox _ H3 (sset_same _ _ _)) as (st4 & -> & H4). exists st4. split; [reflexivity|]. eapply inv_ext; [|exact H4]. intros q. unfold sset. destruct (Nat.eqb q (hm_md x)); reflexivity.
Qed.

Lemma hmac_once_ok a st x tpl K ds : inv a st -> keyed a tpl K -> a (hm_md tpl) = Active default_sbox (ipad K) -> NoDup (cells3 x ++ cells3 tpl) -> bytes K -> Forall bytes ds -> hashable (32 + length (concat ds)) ->
  exists st' b, hmac_once st x tpl ds = Some (st', hmac_dstu K (concat ds)) /\ inv b st' /\ same_but (cells3 x) a b.
Proof.
  intros Hi [Ki Ko] Km D B Bd L. unfold hmac_once, hmac_copy.
  assert (Dn : forall p q, In p (cells3 x) -> In q (cells3 tpl) -> p <> q).
  { intros p q Hp Hq ->. clear - D Hp Hq. induction (cells3 x) as [|y l IH]; [destruct Hp|]. cbn [app] in D. inversion D as [|? ? D1 D2]; subst. destruct Hp as [->|Hp]; [apply D1, in_or_app; right; exact Hq|auto]. }
  assert (Dx : NoDup (cells3 x)) by (clear - D; induction (cells3 x) as [|y l IH]; [constructor|]; cbn [app] in D; inversion D as [|? ? D1 D2]; subst; constructor; [intros X; apply D1, in_or_app; left; exact X|auto]).
  pose proof Dx as Dx'. unfold cells3 in Dx. inversion Dx as [|? ? D1 D2]; subst. inversion D2 as [|? ? D3 D4]; subst.
  assert (N1 : hm_md x <> hm_i x) by (intros X; apply D1; left; auto). assert (N2 : hm_md x <> hm_o x) by (intros X; apply D1; right; left; auto). assert (N3 : hm_i x <> hm_o x) by (intros X; apply D3; left; auto).
  assert (C : forall z w, In z (cells3 x) -> In w (cells3 tpl) -> w <> z) by (intros z w Hz Hw X; apply (Dn z w Hz Hw); auto).
  destruct (copy_ok a st (hm_i x) (hm_i tpl) _ _ Hi Ki) as (st1 & -> & H1); [apply Dn; cbn; auto|].
  destruct (copy_ok _ st1 (hm_o x) (hm_o tpl) default_sbox (opad K) H1) as (st2 & -> & H2); [rewrite sset_other by (apply C; cbn; auto); exact Ko|apply Dn; cbn; auto|].
  destruct (copy_ok _ st2 (hm_md x) (hm_md tpl) default_sbox (ipad K) H2) as (st3 & -> & H3); [rewrite !sset_other by (apply C; cbn; auto); exact Km|apply Dn; cbn; auto|].
  destruct (pad_bytesn K 0x36 ltac:(reflexivity) B) as [_ Li]. fold (ipad K) in Li.
  destruct (hmac_updates_ok x ds _ st3 (ipad K) H3 (sset_same _ _ _) Bd) as (st4 & -> & H4); [rewrite app_length, Li; exact L|].
  destruct (hmac_final_ok _ st4 x K (concat ds) H4 Dx' B) as (st5 & E5 & H5); [rewrite !sset_other, sset_same by congruence; reflexivity|apply sset_same|].
  eexists st5, _. split; [exact E5|]. split; [exact H5|]. intros q Hq. cbn in Hq. rewrite !sset_other by (intros ->; tauto). reflexivity.
Qed.
Lemma hmac_bytesn K m : bytesn 32 (hmac_dstu K m).
Proof. apply dstu_bytesn. Qed.
Definition template (a : slots) (tpl : hmac_ctx) (K : list N) : Prop := keyed a tpl K /\ a (hm_md tpl) = Active default_sbox (ipad K).
Lemma template_kept a b x tpl K : NoDup (cells3 x ++ cells3 tpl) -> same_but (cells3 x) a b -> template a tpl K -> template b tpl K.
Proof.
  intros D S [[Hi Ho] Hm]. assert (Dn : forall q, In q (cells3 tpl) -> b q = a q).
  { intros q Hq. apply S. intros Hp. clear - D Hp Hq. induction (cells3 x) as [|y l IH]; [destruct Hp|]. cbn [app] in D. inversion D as [|? ? D1 D2]; subst. destruct Hp as [->|Hp]; [apply D1, in_or_app; right; exact Hq|auto]. }
  split; [split|]; rewrite Dn by (cbn; auto); assumption.
Qed.
Lemma same_but_trans l a b c : same_but l a b -> same_but l b c -> same_but l a c.
Proof. intros H1 H2 q Hq. rewrite H2, H1 by exact Hq. reflexivity. Qed.
Lemma xorl_firstn n (x y : list N) : firstn n (xorl x y) = xorl (firstn n x) (firstn n y).
Proof. revert n y. induction x as [|a x IH]; intros [|n] [|b y]; try reflexivity. cbn [xorl firstn]. f_equal. apply IH. Qed.
Lemma xorl_length (x y : list N) : length x = length y -> length (xorl x y) = length x.
Proof. revert y. induction x as [|a x IH]; intros [|b y] H; try discriminate; [reflexivity|]. cbn [xorl length] in *. f_equal. apply IH. lia. Qed.
Lemma U_length P S i j : length (U hmac_dstu P S i j) = 32%nat.
Proof. destruct j as [|[|j]]; apply hmac_bytesn. Qed.
Lemma U_bytes P S i j : bytes (U hmac_dstu P S i j).
Proof. destruct j as [|[|j]]; apply hmac_bytesn. Qed.
Lemma rounds_ok x tpl P S i cp n : (cp <= 32)%nat -> NoDup (cells3 x ++ cells3 tpl) -> bytes P -> forall j a st w, (1 <= j)%nat -> length w = 32%nat -> inv a st -> template a tpl P ->
  exists st' b, pbkdf_rounds n st x tpl (U hmac_dstu P S i j) (firstn cp w) = Some (st', firstn cp (fold_left xorl (map (U hmac_dstu P S i) (seq (Datatypes.S j) n)) w)) /\ inv b st' /\ same_but (cells3 x) a b.
Proof.
  intros Hc D B. induction n as [|n IH]; intros j a st w Hj Lw Hi T.
  - exists st, a. cbn [pbkdf_rounds seq map fold_left]. split; [reflexivity|]. split; [exact Hi|intros q _; reflexivity].
  - cbn [pbkdf_rounds]. destruct T as [Tk Tm]. destruct (hmac_once_ok a st x tpl P [U hmac_dstu P S i j] Hi Tk Tm D B) as (st1 & b1 & -> & H1 & S1); [constructor; [apply U_bytes|constructor]|apply hash_small; cbn [concat]; rewrite app_nil_r, U_length; lia|].
    cbn [concat]. rewrite app_nil_r. assert (EU : hmac_dstu P (U hmac_dstu P S i j) = U hmac_dstu P S i (Datatypes.S j)) by (destruct j as [|j]; [lia|reflexivity]). rewrite EU.
    rewrite firstn_length_le by lia. rewrite <- xorl_firstn.
    destruct (IH (Datatypes.S j) b1 st1 (xorl w (U hmac_dstu P S i (Datatypes.S j)))) as (st2 & b2 & E2 & H2 & S2); [lia|rewrite xorl_length; rewrite ?U_length; lia|exact H1|apply (template_kept a b1 x); [exact D|exact S1|split; assumption]|].
    exists st2, b2. split; [exact E2|]. split; [exact H2|eapply same_but_trans; eassumption].
Qed.
Lemma F_length P S c i : length (F hmac_dstu P S c i) = 32%nat.
Proof.
  unfold F. assert (X : forall l w, length w = 32%nat -> Forall (fun x => length x = 32%nat) l -> length (fold_left xorl l w) = 32%nat).
  { induction l as [|y l IH]; intros w Hw Hl; [exact Hw|]. inversion Hl; subst. apply IH; [rewrite xorl_length; lia|assumption]. }
  apply X; [apply U_length|]. apply Forall_map, Forall_forall. intros j _. apply U_length.
Qed.
Lemma itmp_ok i : i < 2 ^ 32 -> [N.land (N.shiftr i 24) 255; N.land (N.shiftr i 16) 255; N.land (N.shiftr i 8) 255; N.land i 255] = be_bytes 4 i.
Proof.
  intros H. change 255 with (N.ones 8). rewrite !N.land_ones, !N.shiftr_div_pow2. unfold be_bytes. cbn [le_bytes rev app]. change (2 ^ 8) with 256. change (2 ^ 16) with (256 * 256). change (2 ^ 24) with (256 * 256 * 256).
  rewrite !N.div_div by discriminate. reflexivity.
Qed.
Lemma blocks_ok x tpl P S c : NoDup (cells3 x ++ cells3 tpl) -> bytes P -> bytes S -> hashable (36 + length S) -> forall fuel tk i a st, (tk <= fuel)%nat -> i + N.of_nat tk < 2 ^ 32 -> inv a st -> template a tpl P ->
  exists st' b, pbkdf_blocks fuel st x tpl S c tk i = Some (st', firstn tk (concat (map (fun k => F hmac_dstu P S c (i + N.of_nat k)) (seq 0 ((tk + 31) / 32))))) /\ inv b st' /\ same_but (cells3 x) a b.
Proof.
  intros D B BS L fuel. induction fuel as [|fuel IH]; intros tk i a st Ht Hn Hi T.
  - assert (tk = 0%nat) by lia. subst tk. exists st, a. split; [reflexivity|]. split; [exact Hi|intros q _; reflexivity].
  - destruct tk as [|tk]; [exists st, a; split; [reflexivity|split; [exact Hi|intros q _; reflexivity]]|]. set (t := Datatypes.S tk) in *. cbn [pbkdf_blocks]. unfold t at 1. cbn match. fold t.
    set (cp := if (32 <? t)%nat then 32%nat else t). assert (Hc : (cp <= 32)%nat /\ (1 <= cp <= t)%nat) by (unfold cp; destruct (Nat.ltb_spec 32 t); lia). destruct Hc as [Hc Hc'].
    rewrite itmp_ok by lia. destruct T as [Tk Tm]. destruct (hmac_once_ok a st x tpl P [S; be_bytes 4 i] Hi Tk Tm D B) as (st1 & b1 & -> & H1 & S1); [constructor; [exact BS|constructor; [apply be_bytes_bytes|constructor]]|cbn [concat]; rewrite app_nil_r, app_length, be_bytes_length; revert L; unfold hashable; lia|].
    cbn [concat]. rewrite app_nil_r. change (hmac_dstu P (S ++ be_bytes 4 i)) with (U hmac_dstu P S i 1).
    pose proof (template_kept a b1 x tpl P D S1 (conj Tk Tm)) as T1.
    destruct (rounds_ok x tpl P S i cp (c - 1) Hc D B 1 b1 st1 (U hmac_dstu P S i 1)) as (st2 & b2 & -> & H2 & S2); [lia|apply U_length|exact H1|exact T1|].
    pose proof (template_kept b1 b2 x tpl P D S2 T1) as T2.
    destruct (IH (t - cp)%nat (i + 1) b2 st2) as (st3 & b3 & -> & H3 & S3); [lia|lia|exact H2|exact T2|].
    exists st3, b3. split; [|split; [exact H3|eapply same_but_trans; [|exact S3]; eapply same_but_trans; eassumption]].
    do 2 apply f_equal. fold (F hmac_dstu P S c i).
    assert (Eb : ((t + 31) / 32 = Datatypes.S ((t - cp + 31) / 32))%nat).
    { unfold cp. destruct (Nat.ltb_spec 32 t) as [Q|Q].
      - replace (t + 31)%nat with (t - 32 + 31 + 1 * 32)%nat by lia. rewrite Nat.div_add by lia. lia.
      - replace (t - t + 31)%nat with 31%nat by lia. replace (t + 31)%nat with (t - 1 + 1 * 32)%nat by lia. rewrite Nat.div_add by lia. rewrite Nat.div_small by lia. reflexivity. }
    rewrite Eb. cbn [seq map concat]. rewrite N.add_0_r. rewrite firstn_app, F_length. rewrite <- seq_shift, map_map.
    assert (Ec : cp = Nat.min 32 t) by (unfold cp; destruct (Nat.ltb_spec 32 t); lia).
    apply (f_equal2 (@app N)).
    + fold (F hmac_dstu P S c i). unfold cp. destruct (Nat.ltb_spec 32 t); [|reflexivity]. rewrite (@firstn_all2 N t) by (rewrite F_length; lia). apply firstn_all2. rewrite F_length; lia.
    + replace (t - 32)%nat with (t - cp)%nat by lia. apply (f_equal (firstn (t - cp))), (f_equal (@concat N)), map_ext. intros k. apply (f_equal (F hmac_dstu P S c)). lia.
Qed.
Lemma pbkdf2_ok a st x tpl P S c n : inv a st -> NoDup (cells3 x ++ cells3 tpl) -> bytes P -> hashable (length P) -> bytes S -> hashable (36 + length S) -> N.of_nat n < 2 ^ 31 ->
  exists st', pbkdf2_hmac st x tpl P S c n = Some (st', pbkdf2_dstu P S c n).
Proof.
  intros Hi D B L BS LS Hn. unfold pbkdf2_hmac.
  assert (Dt : apart3 tpl) by (clear - D; unfold apart3; fold (cells3 tpl); induction (cells3 x) as [|y l IH]; [exact D|]; cbn [app] in D; inversion D; auto).
  destruct (hmac_init_ok a st tpl P Hi Dt B L) as (st1 & b1 & -> & H1 & K1 & M1 & _).
  destruct (blocks_ok x tpl P S c D B BS LS n n 1 b1 st1) as (st2 & b2 & -> & _); [lia|change (2 ^ 32) with 4294967296; change (2 ^ 31) with 2147483648 in Hn; lia|exact H1|split; assumption|].
  eexists. do 2 apply f_equal. unfold pbkdf2_dstu, pbkdf2. rewrite <- seq_shift, map_map. replace (n + 32 - 1)%nat with (n + 31)%nat by lia. apply (f_equal (firstn n)), (f_equal (@concat N)), map_ext. intros k. apply (f_equal (F hmac_dstu P S c)). lia.
Qed.
