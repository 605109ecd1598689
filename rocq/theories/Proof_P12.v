(** The key derivation and the MAC of PKCS#12. *)
From Coq Require Import ZArith List Lia.
Import ListNotations.
From Verif Require Import Base Lib Model_Params Spec_Params Model_Hash Spec_Hash Spec_Md Model_Pbe Spec_Pbe Model_P12 Spec_P12 Proof_Md Proof_Key6 Proof_Pbe Proof_Pbe2.
Open Scope N_scope.

Lemma map_nth_seq (l : list N) n : (n <= length l)%nat -> map (fun i => nth i l 0) (seq 0 n) = firstn n l.
Proof.
  revert n. induction l as [|x l IH]; intros n H; [destruct n; [reflexivity|cbn in H; lia]|]. destruct n as [|n]; [reflexivity|]. cbn [seq map firstn nth]. f_equal. rewrite <- seq_shift, map_map. apply IH. cbn in H. lia.
Qed.
Lemma nth_copies (s : list N) k : s <> [] -> forall i, (i < length s * k)%nat -> nth (i mod length s) s 0 = nth i (concat (repeat s k)) 0.
Proof.
  intros Hs. assert (Ls : (length s <> 0)%nat) by (destruct s; [congruence|cbn; lia]). induction k as [|k IH]; intros i Hi; [lia|]. cbn [repeat concat]. destruct (Nat.ltb_spec i (length s)) as [Q|Q].
  - rewrite Nat.mod_small, app_nth1 by lia. reflexivity.
  - rewrite app_nth2 by lia. rewrite <- IH by lia. f_equal. replace i with ((i - length s) + 1 * length s)%nat at 1 by lia. apply Nat.mod_add. exact Ls.
Qed.
Lemma copies_length (s : list N) k : length (concat (repeat s k)) = (length s * k)%nat.
Proof. induction k as [|k IH]; [cbn; lia|]. cbn [repeat concat]. rewrite app_length, IH. lia. Qed.
Lemma fill_ok s : kg_fill s = stretch 32 s.
Proof.
  unfold kg_fill, stretch, kg_v. destruct s as [|x s']; [reflexivity|]. set (s := x :: s').
  assert (Q : (32 * ((length s + 32 - 1) / 32) <= length s * 32)%nat).
  { assert (Hl : (1 <= length s)%nat) by (cbn; lia). clearbody s. enough ((length s + 32 - 1) / 32 <= length s)%nat by lia. apply Nat.div_le_upper_bound; lia. }
  rewrite <- map_nth_seq by (rewrite copies_length; exact Q). apply map_ext_in. intros i Hi. apply in_seq in Hi. apply nth_copies; [discriminate|lia].
Qed.
Lemma stretch_length s : exists q, length (stretch 32 s) = (32 * q)%nat /\ (32 * q < length s + 32)%nat.
Proof.
  rewrite <- fill_ok. unfold kg_fill, kg_v. rewrite map_length, seq_length. exists ((length s + 32 - 1) / 32)%nat. split; [reflexivity|].
  pose proof (Nat.mul_div_le (length s + 32 - 1) 32). lia.
Qed.
Lemma stretch_bytes s : bytes s -> bytes (stretch 32 s).
Proof.
  intros H. unfold stretch. destruct s as [|x s]; [constructor|]. apply bytes_firstn. generalize 32%nat. intros k. induction k as [|k IH]; [constructor|]. cbn [repeat concat]. apply bytes_app; assumption.
Qed.
Lemma stretch_own A : length A = 32%nat -> firstn 32 (stretch 32 A) = A.
Proof.
  intros H. unfold stretch. destruct A as [|x A]; [discriminate|]. rewrite H. change (32 * ((32 + 32 - 1) / 32))%nat with 32%nat. rewrite firstn_firstn. cbn [repeat concat Nat.min]. rewrite firstn_app, H. change (32 - 32)%nat with 0%nat. rewrite firstn_O, app_nil_r. apply firstn_all2. lia.
Qed.
Lemma fill_own A : length A = 32%nat -> map (fun j => nth (j mod kg_u) A 0) (seq 0 kg_v) = A.
Proof.
  intros H. unfold kg_u, kg_v. transitivity (map (fun j => nth j A 0) (seq 0 32)).
  - apply map_ext_in. intros j Hj. apply in_seq in Hj. rewrite Nat.mod_small by lia. reflexivity.
  - rewrite map_nth_seq by lia. apply firstn_all2. lia.
Qed.
Lemma carry_ok a : forall b c, length b = length a -> kg_carry c a b = le_bytes (length a) (le_val a + le_val b + c).
Proof.
  induction a as [|x a IH]; intros [|y b] c H; try discriminate; [reflexivity|]. cbn [kg_carry length le_bytes le_val]. cbv zeta. rewrite IH by (cbn in H; lia).
  change 255 with (N.ones 8). rewrite N.land_ones, N.shiftr_div_pow2. change (2 ^ 8) with 256.
  replace (x + 256 * le_val a + (y + 256 * le_val b) + c) with (c + x + y + (le_val a + le_val b) * 256) by lia.
  rewrite N.mod_add, N.div_add by discriminate. f_equal. f_equal. lia.
Qed.
Lemma le_bytes_mod n x : le_bytes n (x mod 256 ^ N.of_nat n) = le_bytes n x.
Proof. rewrite <- le_val_le_bytes. apply le_bytes_le_val_n, le_bytes_bytesn. Qed.
Lemma chunks32 q : forall I, length I = (32 * q)%nat -> Forall (fun c => length c = 32%nat) (chunks 32 I).
Proof.
  induction q as [|q IH]; intros I H; [destruct I; [constructor|cbn in H; lia]|]. rewrite chunks_cons; [|lia|destruct I; [cbn in H; lia|discriminate]].
  constructor; [rewrite firstn_length_le; lia|]. apply IH. rewrite skipn_length. lia.
Qed.
Lemma next_ok I B q : length I = (32 * q)%nat -> length B = 32%nat -> kg_next I B = advance 32 I B.
Proof.
  intros LI LB. unfold kg_next, advance. apply (f_equal (@concat N)). apply map_ext_in. intros c Hc. pose proof (proj1 (Forall_forall _ _) (chunks32 q I LI) c Hc) as Lc. cbn beta in Lc.
  rewrite carry_ok by (rewrite !rev_length; lia). rewrite rev_length, Lc. unfold be_bytes. rewrite le_bytes_mod. reflexivity.
Qed.
Lemma concat_const (l : list (list N)) : Forall (fun c => length c = 32%nat) l -> length (concat l) = (32 * length l)%nat.
Proof. induction 1 as [|c l Hc Hl IH]; [reflexivity|]. cbn [concat length]. rewrite app_length, IH. lia. Qed.
Lemma advance_ok I B q : length I = (32 * q)%nat -> bytes (advance 32 I B) /\ length (advance 32 I B) = (32 * q)%nat.
Proof.
  intros LI. unfold advance. split.
  - induction (chunks 32 I) as [|c l IH]; [constructor|]. cbn [map concat]. apply bytes_app; [apply be_bytes_bytes|exact IH].
  - pose proof (chunks32 q I LI) as F. pose proof (concat_const _ F) as E. rewrite chunks_concat in E by lia.
    rewrite concat_const by (apply Forall_map, Forall_forall; intros c _; apply be_bytes_length). rewrite map_length. lia.
Qed.
Lemma updates_ok p ds : forall a st m, inv a st -> a p = Active default_sbox m -> Forall bytes ds -> hashable (length (m ++ concat ds)) ->
  exists st' b, md_updates st p ds = Some st' /\ inv b st' /\ b p = Active default_sbox (m ++ concat ds) /\ same_but [p] a b.
Proof.
  induction ds as [|d ds IH]; intros a st m Hi E B L.
  - exists st, a. cbn [concat]. rewrite app_nil_r. split; [reflexivity|]. split; [exact Hi|]. split; [exact E|intros q _; reflexivity].
  - cbn [md_updates]. inversion B as [|? ? Bd Bds]; subst. cbn [concat] in L. destruct (update_ok a st p default_sbox m d Hi E) as (st1 & -> & H1); [assumption|revert L; unfold hashable; rewrite !app_length; lia|].
    destruct (IH _ st1 (m ++ d) H1) as (st2 & b & E2 & H2 & A2 & S2); [apply sset_same|assumption|rewrite <- app_assoc; exact L|]. exists st2, b. split; [exact E2|]. split; [exact H2|]. cbn [concat]. rewrite app_assoc. split; [exact A2|].
    eapply same_but_trans; [|exact S2]. apply same_sset; [left; reflexivity|intros q _; reflexivity].
Qed.
Lemma once_ok a st p ds : inv a st -> Forall bytes ds -> hashable (length (concat ds)) ->
  exists st' b, md_once st p ds = Some (st', dstu34311 (concat ds)) /\ inv b st' /\ same_but [p] a b.
Proof.
  intros Hi B L. unfold md_once. destruct (init_ok a st p Hi) as (st1 & -> & H1). destruct (updates_ok p ds _ st1 [] H1 (sset_same _ _ _) B L) as (st2 & b & -> & H2 & A2 & S2).
  destruct (final_ok b st2 p default_sbox (concat ds) H2 A2) as (st3 & E3 & H3). exists st3, (sset b p Raw). split; [exact E3|]. split; [exact H3|].
  apply same_sset; [left; reflexivity|]. eapply same_but_trans; [|exact S2]. apply same_sset; [left; reflexivity|intros q _; reflexivity].
Qed.
Lemma times_length r m : length (hash_times dstu34311 r m) = 32%nat.
Proof. destruct r as [|[|r]]; apply dstu_bytesn. Qed.
Lemma times_bytes r m : bytes (hash_times dstu34311 r m).
Proof. destruct r as [|[|r]]; apply dstu_bytesn. Qed.
Lemma iter_ok p m n : forall r a st, (1 <= r)%nat -> inv a st -> exists st' b, kg_iter n st p (hash_times dstu34311 r m) = Some (st', hash_times dstu34311 (n + r) m) /\ inv b st' /\ same_but [p] a b.
Proof.
  induction n as [|n IH]; intros r a st Hr Hi; [exists st, a; split; [reflexivity|split; [exact Hi|intros q _; reflexivity]]|].
  cbn [kg_iter]. destruct (once_ok a st p [hash_times dstu34311 r m] Hi) as (st1 & b1 & -> & H1 & S1); [constructor; [apply times_bytes|constructor]|apply hash_small; cbn [concat]; rewrite app_nil_r, times_length; lia|].
  cbn [concat]. rewrite app_nil_r. assert (E : dstu34311 (hash_times dstu34311 r m) = hash_times dstu34311 (S r) m) by (destruct r; [lia|reflexivity]). rewrite E.
  destruct (IH (S r) b1 st1) as (st2 & b2 & E2 & H2 & S2); [lia|exact H1|]. exists st2, b2. replace (S n + r)%nat with (n + S r)%nat by lia. split; [exact E2|]. split; [exact H2|eapply same_but_trans; eassumption].
Qed.
Lemma loop_ok p D r q : bytes D -> length D = 32%nat -> (1 <= r)%nat -> hashable (32 + 32 * q) -> forall fuel n I a st, (n < fuel)%nat -> bytes I -> length I = (32 * q)%nat -> inv a st ->
  exists st' b, kg_loop fuel st p D I r n = Some (st', firstn n (concat (p12_blocks dstu34311 32 r D I ((n + 31) / 32)))) /\ inv b st' /\ same_but [p] a b.
Proof.
  intros BD LD Hr Hq fuel. induction fuel as [|fuel IH]; intros n I a st Hn BI LI Hi; [lia|]. cbn [kg_loop].
  destruct (once_ok a st p [D; I] Hi) as (st1 & b1 & -> & H1 & S1); [constructor; [exact BD|constructor; [exact BI|constructor]]|cbn [concat]; rewrite app_nil_r, app_length, LD, LI; exact Hq|].
  cbn [concat]. rewrite app_nil_r. destruct (iter_ok p (D ++ I) (r - 1) 1 b1 st1) as (st2 & b2 & E2 & H2 & S2); [lia|exact H1|]. cbn [hash_times] in E2. rewrite E2. clear E2. replace (r - 1 + 1)%nat with r by lia. cbv zeta.
  set (A := hash_times dstu34311 r (D ++ I)). assert (LA : length A = 32%nat) by apply times_length. unfold kg_u. destruct (Nat.leb_spec n 32) as [Q|Q].
  - exists st2, b2. split; [|split; [exact H2|eapply same_but_trans; eassumption]]. do 2 apply f_equal. rewrite Nat.min_l by lia.
    destruct n as [|n]; [reflexivity|]. replace ((S n + 31) / 32)%nat with 1%nat by (replace (S n + 31)%nat with (n + 1 * 32)%nat by lia; rewrite Nat.div_add, Nat.div_small by lia; reflexivity).
    cbn [p12_blocks concat]. fold A. rewrite app_nil_r. reflexivity.
  - fold kg_u. rewrite fill_own by exact LA. unfold kg_u. rewrite (next_ok I A q) by assumption. destruct (advance_ok I A q LI) as [Bn Ln].
    destruct (IH (n - 32)%nat (advance 32 I A) b2 st2) as (st3 & b3 & -> & H3 & S3); [lia|exact Bn|exact Ln|exact H2|].
    exists st3, b3. split; [|split; [exact H3|eapply same_but_trans; [|exact S3]; eapply same_but_trans; eassumption]]. do 2 apply f_equal.
    replace ((n + 31) / 32)%nat with (S ((n - 32 + 31) / 32)) by (replace (n + 31)%nat with (n - 32 + 31 + 1 * 32)%nat by lia; rewrite Nat.div_add by lia; lia).
    cbn [p12_blocks concat]. fold A. cbv zeta. rewrite stretch_own by exact LA. rewrite firstn_app, LA, Nat.min_r by lia. rewrite (@firstn_all2 N n A), (@firstn_all2 N 32 A) by lia. reflexivity.
Qed.
Lemma repeat_bytes id n : id < 256 -> bytes (repeat id n).
Proof. intros H. induction n; constructor; assumption. Qed.
Lemma key_gen_ok a st p P S id r n : inv a st -> bytes P -> bytes S -> hashable (length P + length S + 96) -> id < 256 -> (1 <= r)%nat ->
  exists st' b, key_gen st p P S id r n = Some (st', p12_kdf dstu34311 32 32 id P S r n) /\ inv b st' /\ same_but [p] a b.
Proof.
  intros Hi BP BS L Hid Hr. unfold key_gen. rewrite !fill_ok. destruct (stretch_length P) as (qp & LP & UP). destruct (stretch_length S) as (qs & LS & US).
  destruct (loop_ok p (repeat id kg_v) r (qs + qp) (repeat_bytes id kg_v Hid) (repeat_length _ _) Hr) with (fuel := Datatypes.S n) (n := n) (I := stretch 32 S ++ stretch 32 P) (a := a) (st := st) as (st1 & b1 & -> & H1 & S1).
  - revert L. unfold hashable. lia.
  - lia.
  - apply bytes_app; apply stretch_bytes; assumption.
  - rewrite app_length. lia.
  - exact Hi.
  - eexists _, (sset b1 p Absent). split; [unfold p12_kdf; replace (n + 32 - 1)%nat with (n + 31)%nat by lia; reflexivity|]. split; [apply free_ok, H1|]. apply same_sset; [left; reflexivity|exact S1].
Qed.
Lemma kdf_bytes P S r : bytes (p12_kdf dstu34311 32 32 3 P S r 32) /\ length (p12_kdf dstu34311 32 32 3 P S r 32) = 32%nat.
Proof.
  unfold p12_kdf. change ((32 + 32 - 1) / 32)%nat with 1%nat. cbn [p12_blocks concat]. cbv zeta. rewrite app_nil_r. rewrite firstn_all2 by (rewrite times_length; lia). split; [apply times_bytes|apply times_length].
Qed.
Lemma gen_mac_ok a st p x P S r c : inv a st -> NoDup (cells3 x) -> bytes P -> bytes S -> hashable (length P + length S + 96) -> (1 <= r)%nat -> bytes c -> hashable (32 + length c) ->
  exists st' b, gen_mac st p x P S r c = Some (st', p12_mac_of P S r c) /\ inv b st' /\ same_but (p :: cells3 x) a b.
Proof.
  intros Hi D BP BS L Hr Bc Lc. unfold gen_mac. destruct (key_gen_ok a st p P S PKCS12_MAC_ID r kg_u Hi BP BS L ltac:(reflexivity) Hr) as (st1 & b1 & -> & H1 & S1).
  unfold PKCS12_MAC_ID, kg_u. destruct (kdf_bytes P S r) as [Bk Lk]. set (K := p12_kdf dstu34311 32 32 3 P S r 32) in *.
  destruct (hmac_init_ok b1 st1 x K H1 D Bk) as (st2 & b2 & -> & H2 & [Ki Ko] & M2 & S2); [rewrite Lk; apply hash_small; lia|].
  destruct (pad_bytesn K 0x36 ltac:(reflexivity) Bk) as [_ Li]. fold (ipad K) in Li.
  destruct (hmac_updates_ok x [c] b2 st2 (ipad K) H2 M2) as (st3 & -> & H3); [constructor; [exact Bc|constructor]|cbn [concat]; rewrite app_nil_r, app_length, Li; exact Lc|].
  cbn [concat] in H3. rewrite app_nil_r in H3. unfold cells3 in D. pose proof D as D'. inversion D as [|? ? D1 D2]; subst.
  assert (N2 : hm_md x <> hm_o x) by (intros X; apply D1; right; left; auto).
  destruct (hmac_final_ok _ st3 x K c H3 D' Bk) as (st4 & -> & H4); [rewrite sset_other by congruence; exact Ko|apply sset_same|].
  destruct (frees_ok (p :: cells3 x) [hm_i x; hm_o x; hm_md x]) with (a0 := a) (a := sset (sset b2 (hm_md x) (Active default_sbox (ipad K ++ c))) (hm_md x) Raw) (st := st4) as (b5 & H5 & S5).
  - intros q Hq. cbn in Hq |- *. tauto.
  - apply same_sset; [right; left; reflexivity|]. apply same_sset; [right; left; reflexivity|]. eapply same_but_trans; [eapply same_incl; [|exact S1]; intros q [<-|[]]; left; reflexivity|eapply same_incl; [|exact S2]; intros q Hq; right; exact Hq].
  - exact H4.
  - eexists _, b5. split; [reflexivity|]. split; [exact H5|exact S5].
Qed.
Lemma mac_length P S r c : length (p12_mac_of P S r c) = 32%nat.
Proof. apply hmac_bytesn. Qed.
Lemma kdf_run os st outs p P S id r n : legal no_slots os -> md_run md_empty os = Some (st, outs) -> bytes P -> bytes S -> hashable (length P + length S + 96) -> id < 256 -> (1 <= r)%nat ->
  exists st', key_gen st p P S id r n = Some (st', p12_kdf dstu34311 32 32 id P S r n) /\ others_intact [p] os st'.
Proof.
  intros Hl E BP BS L Hid Hr. pose proof (after_inv os _ _ _ _ empty_inv Hl E) as Hi. destruct (key_gen_ok _ st p P S id r n Hi BP BS L Hid Hr) as (st' & b & E1 & H1 & S1).
  exists st'. split; [exact E1|]. eapply intact; eassumption.
Qed.
Lemma mac_run os st outs p x P S r c stored : legal no_slots os -> md_run md_empty os = Some (st, outs) -> NoDup (cells3 x) -> bytes P -> bytes S -> hashable (length P + length S + 96) -> (1 <= r)%nat -> bytes c -> hashable (32 + length c) ->
  exists st' ok, verify_mac st p x P S r c stored = Some (st', ok) /\ (ok = true <-> stored = p12_mac_of P S r c) /\ others_intact (p :: cells3 x) os st'.
Proof.
  intros Hl E D BP BS L Hr Bc Lc. pose proof (after_inv os _ _ _ _ empty_inv Hl E) as Hi. unfold verify_mac.
  destruct (gen_mac_ok _ st p x P S r c Hi D BP BS L Hr Bc Lc) as (st' & b & -> & H1 & S1). eexists st', _. split; [reflexivity|]. split; [|eapply intact; eassumption].
  destruct (list_eq_dec N.eq_dec stored (p12_mac_of P S r c)) as [->|Nq]; [rewrite Nat.eqb_refl; tauto|rewrite Bool.andb_false_r]. split; [discriminate|intros X; contradiction].
Qed.
Lemma bind P S r c c' : bytes c -> bytes c' -> c <> c' -> p12_mac_of P S r c = p12_mac_of P S r c' -> collision.
Proof.
  intros B B' Nq E. destruct (kdf_bytes P S r) as [Bk _]. unfold p12_mac_of, hmac_dstu in E. set (K := p12_kdf dstu34311 32 32 3 P S r 32) in *. unfold hmac in E. cbv zeta in E.
  assert (Bk2 : bytes ((if (32 <? length K)%nat then dstu34311 K else K) ++ zeros (32 - length (if (32 <? length K)%nat then dstu34311 K else K)))).
  { apply bytes_app; [destruct (32 <? length K)%nat; [apply dstu_bytesn|exact Bk]|apply bytes_zeros]. }
  set (k := _ ++ zeros _) in *. assert (B36 : bytes (map (N.lxor 0x36) k)) by (apply bytes_lxor; [reflexivity|exact Bk2]). assert (B5c : bytes (map (N.lxor 0x5c) k)) by (apply bytes_lxor; [reflexivity|exact Bk2]).
  destruct (list_eq_dec N.eq_dec (dstu34311 (map (N.lxor 0x36) k ++ c)) (dstu34311 (map (N.lxor 0x36) k ++ c'))) as [Q|Q].
  - exists (map (N.lxor 0x36) k ++ c), (map (N.lxor 0x36) k ++ c'). split; [apply bytes_app; assumption|]. split; [apply bytes_app; assumption|]. split; [intros X; apply app_inv_head in X; contradiction|exact Q].
  - exists (map (N.lxor 0x5c) k ++ dstu34311 (map (N.lxor 0x36) k ++ c)), (map (N.lxor 0x5c) k ++ dstu34311 (map (N.lxor 0x36) k ++ c')). split; [apply bytes_app; [exact B5c|apply dstu_bytesn]|]. split; [apply bytes_app; [exact B5c|apply dstu_bytesn]|]. split; [|exact E]. intros X. apply app_inv_head in X. exact (Q X).
Qed.
Lemma bind_run os st outs os' st0 outs' p x p' x' P S r c c' stored st1 st1' : legal no_slots os -> md_run md_empty os = Some (st, outs) -> legal no_slots os' -> md_run md_empty os' = Some (st0, outs') ->
  NoDup (cells3 x) -> NoDup (cells3 x') -> bytes P -> bytes S -> hashable (length P + length S + 96) -> (1 <= r)%nat -> bytes c -> hashable (32 + length c) -> bytes c' -> hashable (32 + length c') ->
  verify_mac st p x P S r c stored = Some (st1, true) -> verify_mac st0 p' x' P S r c' stored = Some (st1', true) -> c = c' \/ collision.
Proof.
  intros Hl E Hl' E' D D' BP BS L Hr B Lc B' Lc' V V'. destruct (mac_run os st outs p x P S r c stored Hl E D BP BS L Hr B Lc) as (s & ok & Q1 & Q2 & _). destruct (mac_run os' st0 outs' p' x' P S r c' stored Hl' E' D' BP BS L Hr B' Lc') as (s' & ok' & Q1' & Q2' & _).
  rewrite V in Q1. rewrite V' in Q1'. injection Q1 as _ <-. injection Q1' as _ <-. destruct (list_eq_dec N.eq_dec c c') as [X|X]; [left; exact X|right]. apply (bind P S r c c' B B' X).
  rewrite <- (proj1 Q2 eq_refl). apply Q2'. reflexivity.
Qed.
