(** Signatures and key generation. *)
From Coq Require Import Lia ZArith.
From Verif Require Import Base Lib Model_Gf2m Model_Compress Model_Ec Model_Sign Spec_Gf2m Spec_Compress Spec_Curves Spec_Sign
  Proof_Gf2 Proof_Field Proof_Compress Proof_Compress2 Proof_Ec Proof_Ec2 Proof_Curves3.

(** * Truncation *)
Lemma size_le_iff a k : N.size a <= k <-> a < 2 ^ k.
Proof.
  split; intros H.
  - pose proof (N.size_gt a). eapply N.lt_le_trans; [exact H0|]. apply N.pow_le_mono_r; lia.
  - destruct (N.eq_dec a 0) as [->|H0]; [cbn; lia|]. rewrite N.size_log2 by exact H0. apply N.le_succ_l. apply N.log2_lt_pow2; lia.
Qed.
Lemma mod_pow_bits a k i : N.testbit (a mod 2 ^ k) i = (i <? k) && N.testbit a i.
Proof.
  destruct (N.ltb_spec i k); cbn.
  - apply N.mod_pow2_bits_low; assumption.
  - apply N.mod_pow2_bits_high; assumption.
Qed.
Lemma truncate_loop_ok k : forall fuel a, (N.to_nat (N.size a) <= fuel)%nat -> truncate_loop fuel a (Z.of_N k) = Some (a mod 2 ^ k).
Proof.
  induction fuel as [|f IH]; intros a Hf; cbn [truncate_loop]; unfold num_bits.
  - assert (E : a < 2 ^ 0) by (apply size_le_iff; lia). assert (a = 0) as -> by (cbn in E; lia). cbn [N.size].
    replace (Z.of_N k <? Z.of_N 0)%Z with false by lia. rewrite N.mod_0_l by (apply N.pow_nonzero; lia). reflexivity.
  - destruct (Z.ltb_spec (Z.of_N k) (Z.of_N (N.size a))).
    + destruct (N.eqb_spec (N.size a) 0); [lia|].
      assert (C : N.clearbit a (N.size a - 1) < 2 ^ (N.size a - 1)).
      { apply bits_lt. intros i Hi. rewrite N.clearbit_eqb. destruct (N.eqb_spec (N.size a - 1) i) as [E|E]; [apply andb_false_r|].
        rewrite (testbit_high a (N.size a)); [reflexivity|apply N.size_gt|lia]. }
      rewrite IH.
      * f_equal. apply N.bits_inj. intros i. rewrite !mod_pow_bits. destruct (N.ltb_spec i k); [cbn|reflexivity]. apply N.clearbit_neq. lia.
      * apply size_le_iff in C. lia.
    + rewrite N.mod_small; [reflexivity|]. apply size_le_iff. lia.
Qed.
Lemma truncate_ok a k : bn_truncate_bits a (Z.of_N k) = Some (a mod 2 ^ k).
Proof. apply truncate_loop_ok. unfold num_bits. lia. Qed.
Lemma field_to_bn_ok v n : n <> 0 -> field_to_bn v n = Some (int_of_field n v).
Proof.
  intros H. unfold field_to_bn, int_of_field, num_bits. assert (N.size n <> 0) by (rewrite N.size_log2 by exact H; lia).
  replace (Z.of_N (N.size n) - 1)%Z with (Z.of_N (N.size n - 1)) by lia. apply truncate_ok.
Qed.
Lemma int_of_field_lt n v : n <> 0 -> int_of_field n v < n.
Proof.
  intros H. unfold int_of_field. eapply N.lt_le_trans; [apply N.mod_lt, N.pow_nonzero; lia|].
  rewrite N.size_log2 by exact H. replace (N.succ (N.log2 n) - 1) with (N.log2 n) by lia. apply N.log2_spec. lia.
Qed.

(** * Digests *)
Lemma hash_ok tbs m : tbs <> [] -> 0 < m -> hash_to_field tbs m = Some (field_of_digest m tbs).
Proof.
  intros H Hm. unfold hash_to_field. destruct tbs as [|b t]; [contradiction|]. unfold be_val. rewrite rev_involutive. unfold field_of_digest.
  rewrite truncate_ok. destruct (N.eqb_spec (le_val (b :: t)) 0); [|reflexivity]. rewrite N.mod_small; [reflexivity|].
  apply (N.pow_gt_1 2 m); lia.
Qed.
Lemma hash_empty m : hash_to_field [] m = None.
Proof. reflexivity. Qed.
(** Degree 0 does not occur for the groups OpenSSL accepts. *)
Lemma hash_any tbs m : tbs <> [] -> exists h, hash_to_field tbs m = Some h.
Proof. intros H. unfold hash_to_field. destruct tbs; [contradiction|]. rewrite truncate_ok. eauto. Qed.

(** * Verification *)
Definition halves (sig : list N) : N * N :=
  let half := (length sig / 2)%nat in (be_val (firstn half sig), be_val (firstn half (skipn half sig))).
Lemma verify_iff g d Q tbs sig : 1 < c_p (g_curve g) -> g_order g <> 0 ->
  do_verify (ECKEY (Some (Binary g)) d (Some Q)) tbs sig = true <-> tbs <> [] /\ valid_signature g Q tbs (fst (halves sig)) (snd (halves sig)).
Proof.
  intros Hp Hn. unfold do_verify, valid_signature, halves. cbn [ek_group ek_pub fst snd].
  set (s := be_val (firstn _ sig)). set (r := be_val (firstn _ (skipn _ _))). clearbody s r.
  assert (Hd : 0 < degree (c_p (g_curve g))) by (apply Proof_Field.degree_pos; exact Hp).
  destruct tbs as [|b t]; [split; [discriminate|intros [H _]; contradiction]|].
  rewrite hash_ok by (assumption || discriminate). destruct (N.eqb_spec (g_order g) 0); [contradiction|].
  destruct (N.eqb_spec s 0); cbn [orb]; [split; [discriminate|lia]|]. destruct (N.eqb_spec r 0); [split; [discriminate|lia]|].
  destruct (N.leb_spec (g_order g) s); cbn [orb]; [split; [discriminate|lia]|]. destruct (N.leb_spec (g_order g) r); [split; [discriminate|lia]|].
  destruct (padd _ _ _) as [[x y]|].
  - rewrite field_to_bn_ok by assumption. rewrite N.eqb_eq. split.
    + intros E. split; [discriminate|]. split; [lia|]. split; [lia|]. exists x, y. split; [reflexivity|]. symmetry. exact E.
    + intros [_ [_ [_ [x' [y' [[= <- <-] E]]]]]]. symmetry. exact E.
  - split; [discriminate|]. intros [_ [_ [_ [x' [y' [E _]]]]]]. discriminate.
Qed.

(** * Signing *)
Lemma add_quick a b m : a < m -> b < m -> mod_add_quick a b m = (a + b) mod m.
Proof.
  intros Ha Hb. unfold mod_add_quick. destruct (N.leb_spec m (a + b)).
  - apply N.mod_unique with 1; lia.
  - symmetry. apply N.mod_small. lia.
Qed.
Lemma attempt_done g d h e s r : g_order g <> 0 -> e < g_order g -> attempt g d h e = Done (s, r) ->
  s <> 0 /\ r <> 0 /\ exists x y, pmul (g_curve g) e (g_gen g) = Some (x, y) /\ x <> 0 /\
  r = int_of_field (g_order g) (gmul (c_p (g_curve g)) h x) /\ s = (e + d * r) mod g_order g.
Proof.
  intros Hn He. unfold attempt. destruct (pmul _ _ _) as [[x y]|]; [|discriminate].
  destruct (N.eqb_spec x 0) as [|Hx]; [discriminate|]. rewrite field_to_bn_ok by assumption.
  set (r' := int_of_field _ _). destruct (N.eqb_spec r' 0) as [|Hr]; [discriminate|].
  rewrite add_quick by (try assumption; apply N.mod_lt; exact Hn).
  rewrite N.add_mod_idemp_l by exact Hn. set (s' := _ mod _). destruct (N.eqb_spec s' 0) as [|Hs]; [discriminate|].
  intros [= <- <-]. split; [exact Hs|]. split; [exact Hr|]. exists x, y. split; [reflexivity|]. split; [exact Hx|]. split; [reflexivity|].
  unfold s'. rewrite N.add_comm. reflexivity.
Qed.
(** The first nonce that neither repeats nor fails decides. *)
Lemma loop_done g d h src : forall fuel i s r, sign_loop fuel g d h src i = Done (s, r) <->
  exists k e, (k < fuel)%nat /\ src (i + k)%nat = Some e /\ attempt g d h e = Done (s, r) /\
    forall j, (j < k)%nat -> exists e', src (i + j)%nat = Some e' /\ attempt g d h e' = Running.
Proof.
  induction fuel as [|f IH]; intros i s r; cbn [sign_loop].
  - split; [discriminate|]. intros [k [e [H _]]]. lia.
  - destruct (src i) as [e|] eqn:Es.
    + destruct (attempt g d h e) as [| |[s' r']] eqn:Ea.
      * rewrite IH. split.
        -- intros [k [e' [Hk [Hs [Ha Hj]]]]]. exists (S k), e'. split; [lia|]. split; [rewrite <- plus_n_Sm; exact Hs|]. split; [exact Ha|].
           intros j Hlt. destruct j as [|j]; [exists e; rewrite Nat.add_0_r; auto|]. destruct (Hj j ltac:(lia)) as [e2 H2]. exists e2. rewrite <- plus_n_Sm. exact H2.
        -- intros [k [e' [Hk [Hs [Ha Hj]]]]]. destruct k as [|k]; [rewrite Nat.add_0_r in Hs; congruence|]. exists k, e'. split; [lia|].
           split; [cbn; rewrite plus_n_Sm; exact Hs|]. split; [exact Ha|]. intros j Hlt. destruct (Hj (S j) ltac:(lia)) as [e2 H2]. exists e2. cbn. rewrite plus_n_Sm. exact H2.
      * split; [discriminate|]. intros [k [e' [Hk [Hs [Ha Hj]]]]]. destruct k as [|k]; [rewrite Nat.add_0_r in Hs; congruence|].
        destruct (Hj 0%nat ltac:(lia)) as [e2 [H2 H3]]. rewrite Nat.add_0_r in H2. congruence.
      * split.
        -- intros [= -> ->]. exists 0%nat, e. split; [lia|]. rewrite Nat.add_0_r. split; [exact Es|]. split; [exact Ea|]. intros j Hj. lia.
        -- intros [k [e' [Hk [Hs [Ha Hj]]]]]. destruct k as [|k]; [rewrite Nat.add_0_r in Hs; congruence|].
           destruct (Hj 0%nat ltac:(lia)) as [e2 [H2 H3]]. rewrite Nat.add_0_r in H2. congruence.
    + split; [discriminate|]. intros [k [e' [Hk [Hs [Ha Hj]]]]]. destruct k as [|k]; [rewrite Nat.add_0_r in Hs; congruence|].
      destruct (Hj 0%nat ltac:(lia)) as [e2 [H2 H3]]. rewrite Nat.add_0_r in H2. congruence.
Qed.
Lemma size_bytes n : n < 256 ^ num_bytes n.
Proof.
  unfold num_bytes, num_bits. change 256 with (2 ^ 8). rewrite <- N.pow_mul_r. apply size_le_iff.
  pose proof (N.div_mod (N.size n + 7) 8 ltac:(lia)). pose proof (N.mod_lt (N.size n + 7) 8 ltac:(lia)). lia.
Qed.
Lemma encode_ok v n : v <> 0 -> v < n -> bn_encode v (num_bytes n) = Some (be_bytes (N.to_nat (num_bytes n)) v, num_bytes v) /\ num_bytes v <> 0.
Proof.
  intros H0 Hlt. split.
  - unfold bn_encode. destruct (N.ltb_spec (num_bytes n) (num_bytes v)); [|reflexivity].
    enough (num_bytes v <= num_bytes n) by lia. unfold num_bytes, num_bits. apply N.div_le_mono; [lia|]. apply N.add_le_mono_r. apply size_le_iff. pose proof (N.size_gt n). lia.
  - unfold num_bytes, num_bits. rewrite N.size_log2 by exact H0. intros E. apply N.div_small_iff in E; lia.
Qed.
Definition sig_bytes (n s r : N) : list N := be_bytes (N.to_nat (num_bytes n)) s ++ be_bytes (N.to_nat (num_bytes n)) r.
Lemma sign_iff fuel g d Q tbs src sig : 1 < c_p (g_curve g) -> g_order g <> 0 -> ranged (g_order g) src ->
  do_sign fuel (ECKEY (Some (Binary g)) (Some d) Q) tbs src = Done sig <->
  tbs <> [] /\ exists s r, sign_loop fuel g d (field_of_digest (degree (c_p (g_curve g))) tbs) src 0 = Done (s, r) /\ sig = sig_bytes (g_order g) s r.
Proof.
  intros Hp Hn Hr. unfold do_sign. cbn [ek_priv ek_group]. destruct (N.eqb_spec (g_order g) 0); [contradiction|].
  assert (Hd : 0 < degree (c_p (g_curve g))) by (apply Proof_Field.degree_pos; exact Hp).
  destruct tbs as [|b t]; [split; [discriminate|intros [H _]; contradiction]|]. rewrite hash_ok by (assumption || discriminate).
  destruct (sign_loop _ _ _ _ _ _) as [| |[s r]] eqn:El.
  - split; [discriminate|]. intros [_ [s [r [H _]]]]. discriminate.
  - split; [discriminate|]. intros [_ [s [r [H _]]]]. discriminate.
  - pose proof El as El'. apply loop_done in El as [k [e [_ [Es [Ea _]]]]]. apply attempt_done in Ea as [Hs [Hr0 [x [y [_ [_ [Er E]]]]]]]; [|assumption|exact (Hr _ _ Es)].
    assert (s < g_order g) by (rewrite E; apply N.mod_lt; assumption). assert (r < g_order g) by (rewrite Er; apply int_of_field_lt; assumption).
    destruct (encode_ok s (g_order g) Hs H) as [-> Hs']. destruct (encode_ok r (g_order g) Hr0 H0) as [-> Hr'].
    destruct (N.eqb_spec (num_bytes s) 0); [contradiction|]. destruct (N.eqb_spec (num_bytes r) 0); [contradiction|]. cbn [orb]. split.
    + intros [= <-]. split; [discriminate|]. exists s, r. split; reflexivity.
    + intros [_ [s' [r' [[= <- <-] ->]]]]. reflexivity.
Qed.
Lemma halves_sig n s r : s < n -> r < n -> halves (sig_bytes n s r) = (s, r).
Proof.
  intros Hs Hr. unfold halves, sig_bytes. set (k := N.to_nat (num_bytes n)).
  assert (L : forall v, length (be_bytes k v) = k) by (intros v; apply be_bytes_length).
  rewrite app_length, !L. replace (k + k)%nat with (k * 2)%nat by lia. rewrite Nat.div_mul by discriminate.
  rewrite firstn_app, L, Nat.sub_diag, firstn_O, app_nil_r. rewrite skipn_app, L, Nat.sub_diag. cbn [skipn].
  rewrite <- (L s) at 1. rewrite firstn_all. rewrite skipn_all2 by (rewrite L; lia). cbn [app]. rewrite <- (L r) at 2. rewrite firstn_all.
  assert (F : forall v, v < n -> be_val (be_bytes k v) = v).
  { intros v Hv. apply be_val_be_bytes. unfold k. rewrite N2Nat.id. pose proof (size_bytes n). lia. }
  rewrite !F by assumption. reflexivity.
Qed.
(** What signing gives. *)
Lemma sign_done fuel g d Q tbs src sig : 1 < c_p (g_curve g) -> g_order g <> 0 -> ranged (g_order g) src ->
  do_sign fuel (ECKEY (Some (Binary g)) (Some d) Q) tbs src = Done sig ->
  exists s r e k, 1 <= s < g_order g /\ 1 <= r < g_order g /\ src k = Some e /\ signature_of g d e tbs s r /\ sig = sig_bytes (g_order g) s r.
Proof.
  intros Hp Hn Hr H. apply sign_iff in H as [_ [s [r [H E]]]]; [|assumption..]. apply loop_done in H as [k [e [_ [Es [Ea _]]]]]. cbn [Nat.add] in Es.
  apply attempt_done in Ea as [Hs [Hr0 [x [y [Ep [_ [Er E']]]]]]]; [|assumption|exact (Hr _ _ Es)].
  assert (s < g_order g) by (rewrite E'; apply N.mod_lt; assumption). assert (r < g_order g) by (rewrite Er; apply int_of_field_lt; assumption).
  exists s, r, e, k. split; [lia|]. split; [lia|]. split; [exact Es|]. split; [|exact E]. exists x, y. auto.
Qed.
Lemma sig_valid g d e tbs s r Q : well_formed g -> key_pair g d Q -> 1 <= s < g_order g -> 1 <= r < g_order g -> signature_of g d e tbs s r -> valid_signature g Q tbs s r.
Proof.
  intros W K Hs Hr [x [y [Ep [Er Es]]]]. split; [exact Hs|]. split; [exact Hr|]. exists x, y. split; [|symmetry; exact Er].
  rewrite <- Ep, K. pose proof (wf_nonsing _ W) as H. destruct W as [_ [_ [[gx [gy [Eg [G _]]]] [Hn [_ Ho]]]]].
  destruct g as [c G0 n h]. cbn [g_curve g_gen g_order] in *. subst G0. open_c c H.
  apply (verify_eq p a b Hp Hirr Ha Hb Hb0 n); try assumption.
  - apply point_pt; [exact Hp|exact Hb|exact G].
  - lia.
  - rewrite Es. apply N.mod_mod. lia.
Qed.
Lemma wf_p g : well_formed g -> 1 < c_p (g_curve g).
Proof. intros W. apply (wf_nonsing g W). Qed.
Lemma wf_n g : well_formed g -> g_order g <> 0.
Proof. intros [_ [_ [_ [H _]]]]. lia. Qed.
Lemma sign_verify fuel g d Q tbs src sig : well_formed g -> key_pair g d Q -> ranged (g_order g) src ->
  do_sign fuel (ECKEY (Some (Binary g)) (Some d) (Some Q)) tbs src = Done sig -> do_verify (ECKEY (Some (Binary g)) None (Some Q)) tbs sig = true.
Proof.
  intros W K Hr H. assert (Hp := wf_p g W). assert (Hn := wf_n g W). assert (Ht : tbs <> []) by (apply sign_iff in H; tauto).
  apply sign_done in H as [s [r [e [k [Hs [Hr' [_ [Hsg ->]]]]]]]]; [|assumption..]. apply verify_iff; [assumption..|]. split; [exact Ht|].
  rewrite halves_sig by lia. cbn [fst snd]. apply (sig_valid g d e); assumption.
Qed.

(** * Keys *)
Lemma prk_done src : forall fuel i d, prk_loop fuel src i = Done d <->
  exists k, (k < fuel)%nat /\ src (i + k)%nat = Some d /\ d <> 0 /\ forall j, (j < k)%nat -> src (i + j)%nat = Some 0.
Proof.
  induction fuel as [|f IH]; intros i d; cbn [prk_loop].
  - split; [discriminate|]. intros [k [H _]]. lia.
  - destruct (src i) as [v|] eqn:Es.
    + destruct (N.eqb_spec v 0) as [->|H0].
      * rewrite IH. split.
        -- intros [k [Hk [Hs [Hd Hj]]]]. exists (S k). split; [lia|]. split; [rewrite <- plus_n_Sm; exact Hs|]. split; [exact Hd|].
           intros [|j] Hlt; [rewrite Nat.add_0_r; exact Es|]. rewrite <- plus_n_Sm. apply Hj. lia.
        -- intros [[|k] [Hk [Hs [Hd Hj]]]]; [rewrite Nat.add_0_r in Hs; congruence|]. exists k. split; [lia|]. split; [cbn; rewrite plus_n_Sm; exact Hs|].
           split; [exact Hd|]. intros j Hlt. cbn. rewrite plus_n_Sm. apply Hj. lia.
      * split.
        -- intros [= <-]. exists 0%nat. split; [lia|]. rewrite Nat.add_0_r. split; [exact Es|]. split; [exact H0|]. intros j Hj. lia.
        -- intros [[|k] [Hk [Hs [Hd Hj]]]]; [rewrite Nat.add_0_r in Hs; congruence|]. specialize (Hj 0%nat ltac:(lia)). rewrite Nat.add_0_r in Hj. congruence.
    + split; [discriminate|]. intros [[|k] [Hk [Hs [Hd Hj]]]]; [rewrite Nat.add_0_r in Hs; congruence|]. specialize (Hj 0%nat ltac:(lia)). rewrite Nat.add_0_r in Hj. congruence.
Qed.
Lemma prk_failed src : forall fuel i, prk_loop fuel src i = Failed <-> exists k, (k < fuel)%nat /\ src (i + k)%nat = None /\ forall j, (j < k)%nat -> src (i + j)%nat = Some 0.
Proof.
  induction fuel as [|f IH]; intros i; cbn [prk_loop].
  - split; [discriminate|]. intros [k [H _]]. lia.
  - destruct (src i) as [v|] eqn:Es.
    + destruct (N.eqb_spec v 0) as [->|H0].
      * rewrite IH. split.
        -- intros [k [Hk [Hs Hj]]]. exists (S k). split; [lia|]. split; [rewrite <- plus_n_Sm; exact Hs|].
           intros [|j] Hlt; [rewrite Nat.add_0_r; exact Es|]. rewrite <- plus_n_Sm. apply Hj. lia.
        -- intros [[|k] [Hk [Hs Hj]]]; [rewrite Nat.add_0_r in Hs; congruence|]. exists k. split; [lia|]. split; [cbn; rewrite plus_n_Sm; exact Hs|].
           intros j Hlt. cbn. rewrite plus_n_Sm. apply Hj. lia.
      * split; [discriminate|]. intros [[|k] [Hk [Hs Hj]]]; [rewrite Nat.add_0_r in Hs; congruence|]. specialize (Hj 0%nat ltac:(lia)). rewrite Nat.add_0_r in Hj. congruence.
    + split; [|reflexivity]. intros _. exists 0%nat. split; [lia|]. rewrite Nat.add_0_r. split; [exact Es|]. intros j Hj. lia.
Qed.
Lemma generate_iff fuel g d0 q0 src k : g_order g <> 0 ->
  generate_key fuel (ECKEY (Some (Binary g)) d0 q0) src = Done k <->
  exists i d, (i < fuel)%nat /\ (forall j, (j < i)%nat -> src j = Some 0) /\ src i = Some d /\ d <> 0 /\
    k = ECKEY (Some (Binary g)) (Some d) (Some (pneg (pmul (g_curve g) d (g_gen g)))).
Proof.
  intros Hn. unfold generate_key. cbn [ek_group]. destruct (N.eqb_spec (g_order g) 0); [contradiction|].
  pose proof (prk_done src fuel 0) as P. cbn [Nat.add] in P. destruct (prk_loop fuel src 0) as [| |d].
  - split; [discriminate|]. intros [i [d [Hi [Hj [Hs [Hd _]]]]]]. specialize (P d). assert (E : @Running N = Done d) by (apply P; exists i; auto). discriminate.
  - split; [discriminate|]. intros [i [d [Hi [Hj [Hs [Hd _]]]]]]. specialize (P d). assert (E : @Failed N = Done d) by (apply P; exists i; auto). discriminate.
  - cbn [add_public_key ek_group ek_priv ek_pub]. split.
    + intros [= <-]. destruct (proj1 (P d) eq_refl) as [i [Hi [Hs [Hd Hj]]]]. exists i, d. repeat split; auto.
    + intros [i [d' [Hi [Hj [Hs [Hd ->]]]]]]. assert (E : Done d = Done d') by (apply P; exists i; auto). injection E as ->. reflexivity.
Qed.
Lemma generate_failed fuel g d0 q0 src : g_order g <> 0 ->
  generate_key fuel (ECKEY (Some (Binary g)) d0 q0) src = Failed <-> exists i, (i < fuel)%nat /\ (forall j, (j < i)%nat -> src j = Some 0) /\ src i = None.
Proof.
  intros Hn. unfold generate_key. cbn [ek_group]. destruct (N.eqb_spec (g_order g) 0); [contradiction|].
  pose proof (prk_failed src fuel 0) as P. cbn [Nat.add] in P. destruct (prk_loop fuel src 0) as [| |d].
  - split; [discriminate|]. intros [i [Hi [Hj Hs]]]. assert (E : @Running N = Failed) by (apply P; exists i; auto). discriminate.
  - split; [|reflexivity]. intros _. destruct (proj1 P eq_refl) as [i [Hi [Hs Hj]]]. exists i. auto.
  - cbn [add_public_key ek_group ek_priv ek_pub]. split; [discriminate|]. intros [i [Hi [Hj Hs]]]. assert (E : Done d = Failed) by (apply P; exists i; auto). discriminate.
Qed.
