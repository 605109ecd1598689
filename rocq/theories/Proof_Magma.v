(** Magma, and the predefined substitution blocks. *)
From Coq Require Import Lia FinFun.
From Verif Require Import Base Lib Model_Gost89 Model_Sboxes Spec_Gost89 Spec_Magma Proof_Gost89 Proof_Gost89Modes.

Lemma tc26_wf : sb_wf Gost28147_TC26ParamSetZ.
Proof. repeat split; repeat constructor. Qed.
Lemma rows_eq i : sb_row Gost28147_TC26ParamSetZ i = nth i magma_pi [].
Proof. destruct i as [|[|[|[|[|[|[|[|i]]]]]]]]; [reflexivity..|]. destruct i; reflexivity. Qed.
Lemma t_ok a : subst32 (sb_fun Gost28147_TC26ParamSetZ) a = magma_t magma_pi a.
Proof.
  unfold subst32, sb_fun. cbn [seq fold_right]. rewrite !rows_eq. unfold magma_pi. cbn [magma_t nth].
  rewrite !N.div_div by lia.
  repeat match goal with |- context [a / ?d] => let d' := eval vm_compute in d in progress change (a / d) with (a / d') end.
  repeat match goal with |- context [16 ^ ?d] => let d' := eval vm_compute in (16 ^ d) in change (16 ^ d) with d' end.
  rewrite N.div_1_r.
  repeat match goal with |- context [nth ?x ?l 0] => let v := fresh "v" in set (v := nth x l 0); clearbody v end. lia.
Qed.
Lemma g_ok k a : F (sb_fun Gost28147_TC26ParamSetZ) k a = magma_g k a.
Proof. unfold F, magma_g, rol11. rewrite t_ok. reflexivity. Qed.
Lemma fold_ok ks : forall a1 a0, fold_left (feistel (sb_fun Gost28147_TC26ParamSetZ)) ks (a0, a1) =
  let r := fold_left (fun s k => magma_G k s) ks (a1, a0) in (snd r, fst r).
Proof.
  induction ks as [|k ks IH]; intros a1 a0; [reflexivity|]. cbn [fold_left]. unfold feistel at 2. cbn [fst snd]. rewrite g_ok, IH. unfold magma_G at 3. cbn [fst snd]. rewrite (N.lxor_comm a1). reflexivity.
Qed.
Lemma rol_lt y : y < 2 ^ 32 -> rol11 y < 2 ^ 32.
Proof.
  intros H. unfold rol11. change (2 ^ 32) with (2097152 * 2048) in *. change (2 ^ 11) with 2048. change (2 ^ 21) with 2097152. rewrite N.mul_mod_distr_r by discriminate.
  pose proof (N.mod_upper_bound y 2097152 ltac:(discriminate)). assert (y / 2097152 < 2048) by (apply N.div_lt_upper_bound; [discriminate|exact H]). lia.
Qed.
Lemma g_lt k a : magma_g k a < 2 ^ 32.
Proof. rewrite <- g_ok. unfold F. apply rol_lt, subst32_lt. intros i v Hi _. apply sb_fun_lt; [exact tc26_wf|exact Hi]. Qed.
Lemma fold_lt ks : forall a1 a0, a1 < 2 ^ 32 -> a0 < 2 ^ 32 -> let r := fold_left (fun s k => magma_G k s) ks (a1, a0) in fst r < 2 ^ 32 /\ snd r < 2 ^ 32.
Proof.
  induction ks as [|k ks IH]; intros a1 a0 H1 H0; [split; assumption|]. cbn [fold_left]. unfold magma_G at 2 4. cbn [fst snd]. apply IH; [exact H0|]. apply lxor_lt; [apply g_lt|exact H1].
Qed.
(** The last round without the exchange. *)
Lemma run_ok ks a : length ks = 32%nat -> magma_run ks a = let r := fold_left (fun s k => magma_G k s) ks (a / 2 ^ 32, a mod 2 ^ 32) in snd r * 2 ^ 32 + fst r.
Proof.
  intros L. unfold magma_run. set (s := (a / 2 ^ 32, a mod 2 ^ 32)). clearbody s.
  replace (fold_left (fun s k => magma_G k s) ks s) with (fold_left (fun s k => magma_G k s) (firstn 31 ks ++ [nth 31 ks 0]) s).
  - rewrite fold_left_app. reflexivity.
  - f_equal. rewrite <- (firstn_skipn 31 ks) at 3. f_equal. pose proof (skipn_length 31 ks) as E. rewrite L in E. rewrite <- (firstn_skipn 31 ks) at 1. rewrite app_nth2 by (rewrite firstn_length; lia).
    rewrite firstn_length, L. cbn [Nat.min Nat.sub]. destruct (skipn 31 ks) as [|x [|y l]]; [discriminate E|reflexivity|discriminate E].
Qed.
Lemma block_ok ks blk : length ks = 32%nat -> bytesn 8 blk ->
  be_val (rev (block_cipher (sb_fun Gost28147_TC26ParamSetZ) ks (rev blk))) = magma_run ks (be_val blk).
Proof.
  intros L [Hb Hl]. rewrite run_ok by exact L. cbv zeta. unfold block_cipher, split64.
  rewrite firstn_rev, skipn_rev, Hl. change (8 - 4)%nat with 4%nat. set (h := firstn 4 blk). set (t := skipn 4 blk).
  assert (Lh : length h = 4%nat) by (subst h; rewrite firstn_length; lia). assert (Lt : length t = 4%nat) by (subst t; rewrite skipn_length; lia).
  assert (Bh : bytes h) by (apply bytes_firstn, Hb). assert (Bt : bytes t) by (apply bytes_skipn, Hb).
  assert (E : be_val blk = be_val h * 2 ^ 32 + be_val t) by (rewrite <- (firstn_skipn 4 blk); fold h t; rewrite be_val_app, Lt; reflexivity).
  fold (be_val t) (be_val h).
  pose proof (be_val_lt h Bh) as Vh. pose proof (be_val_lt t Bt) as Vt. rewrite Lh in Vh. rewrite Lt in Vt. change (256 ^ N.of_nat 4) with (2 ^ 32) in *.
  rewrite E. rewrite N.div_add_l, N.div_small, N.add_0_r by (assumption || discriminate). replace ((be_val h * 2 ^ 32 + be_val t) mod 2 ^ 32) with (be_val t) by (rewrite N.add_comm, N.mod_add by discriminate; symmetry; apply N.mod_small, Vt).
  rewrite fold_ok. cbv zeta. destruct (fold_lt ks (be_val h) (be_val t) Vh Vt) as [F1 F2]. set (r := fold_left _ ks _) in *. clearbody r. cbn [fst snd].
  unfold be_val. rewrite rev_involutive, le_val_app, !le_val_le_bytes_small, le_bytes_length by assumption. change (256 ^ N.of_nat 4) with (2 ^ 32). lia.
Qed.
Lemma words_ok k : bytesn 32 k -> key_words (swap4 k) = map (magma_word k) (seq 0 8).
Proof. intros [Hk Hl]. clear Hk. explode k. reflexivity. Qed.
Lemma enc_ok k : bytesn 32 k -> enc_keys (key_words (swap4 k)) = magma_keys k.
Proof. intros H. unfold enc_keys, magma_keys. rewrite words_ok by exact H. reflexivity. Qed.
Lemma dec_ok k : bytesn 32 k -> dec_keys (key_words (swap4 k)) = rev (magma_keys k).
Proof. intros H. unfold dec_keys, magma_keys. rewrite words_ok by exact H. cbv zeta. rewrite !rev_app_distr, rev_involutive, !app_assoc. reflexivity. Qed.
Lemma keys_length k : length (magma_keys k) = 32%nat.
Proof. reflexivity. Qed.
Lemma magma_ok c0 rnd k blk : mask_wf rnd -> bytesn 32 k -> bytesn 8 blk -> let c := magma_key rnd (gost_init c0 (Some Gost28147_TC26ParamSetZ)) k in
  be_val (rev (gostcrypt c (rev blk))) = magma_encrypt k (be_val blk) /\ be_val (rev (gostdecrypt c (rev blk))) = magma_decrypt k (be_val blk).
Proof.
  intros Hm Hk Hb c. subst c. rewrite magma_key_swap by exact Hk.
  assert (Hr : bytesn 8 (rev blk)) by (destruct Hb as [B L]; split; [apply bytes_rev, B|rewrite rev_length; exact L]).
  destruct (block_is_gost c0 Gost28147_TC26ParamSetZ rnd (swap4 k) (rev blk) tc26_wf Hm (swap4_bytesn k Hk) Hr) as [E [D _]]. cbv zeta in E, D. rewrite E, D.
  unfold encrypt, decrypt, magma_encrypt, magma_decrypt. rewrite enc_ok, dec_ok by exact Hk.
  split; apply block_ok; try exact Hb; [|rewrite rev_length]; apply keys_length.
Qed.
Lemma default_ok c0 rnd k blk : mask_wf rnd -> bytesn 32 k -> bytesn 8 blk ->
  let c := gost_key rnd (gost_init c0 None) k in gostcrypt c blk = encrypt (sb_fun GostR3411_94_TestParamSet) k blk /\ gostdecrypt c blk = decrypt (sb_fun GostR3411_94_TestParamSet) k blk.
Proof.
  intros Hm Hk Hb. assert (W : sb_wf GostR3411_94_TestParamSet) by (repeat split; repeat constructor).
  destruct (block_is_gost c0 GostR3411_94_TestParamSet rnd k blk W Hm Hk Hb) as [E [D _]]. split; assumption.
Qed.
(** A check for permutations. *)
Definition permb (row : list N) : bool := Nat.eqb (length row) 16 && forallb (fun v => Nat.eqb (count_occ N.eq_dec row (N.of_nat v)) 1) (seq 0 16).
Lemma permb_ok row : permb row = true -> row_permutes row.
Proof.
  unfold permb, row_permutes. intros H. apply andb_true_iff in H as [L H]. apply Nat.eqb_eq in L. split; [exact L|]. intros v Hv.
  rewrite forallb_forall in H. assert (O : forall w, w < 16 -> In w row).
  { intros w Hw. specialize (H (N.to_nat w)). rewrite N2Nat.id in H. apply (count_occ_In N.eq_dec). enough (count_occ N.eq_dec row w = 1%nat) by lia. apply Nat.eqb_eq, H. apply in_seq. lia. }
  assert (ND : NoDup row).
  { apply (@NoDup_incl_NoDup N (map N.of_nat (seq 0 16))); [|rewrite map_length, seq_length; lia|].
    - apply FinFun.Injective_map_NoDup; [intros x y; apply Nat2N.inj|apply seq_NoDup].
    - intros w Hw. apply in_map_iff in Hw as [i [<- Hi]]. apply in_seq in Hi. apply O. lia. }
  destruct (In_nth row v 16 (O v Hv)) as [e [He E]]. exists e. split; [lia|]. split; [exact E|]. intros e' He' E'.
  rewrite NoDup_nth in ND. apply ND; [lia|lia|]. rewrite E. exact E'.
Qed.
Lemma predefined_ok b i : In b predefined -> (i < 8)%nat -> sb_wf b /\ row_permutes (sb_row b i).
Proof.
  intros Hb Hi. split.
  - unfold predefined in Hb. cbn [In] in Hb. repeat (destruct Hb as [<-|Hb]; [repeat split; repeat constructor|]). contradiction.
  - apply permb_ok. assert (A : forallb (fun b => forallb (fun i => permb (sb_row b i)) (seq 0 8)) predefined = true) by (vm_compute; reflexivity).
    rewrite forallb_forall in A. specialize (A b Hb). rewrite forallb_forall in A. apply A, in_seq. lia.
Qed.
