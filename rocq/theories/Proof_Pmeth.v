(** Signing and verification through the public interface. *)
From Coq Require Import Lia ZArith.
From Verif Require Import Base Lib Model_Gf2m Model_Compress Model_Ec Model_Curves Model_Sign Model_Asn1 Model_Pmeth Spec_Asn1 Spec_Curves Spec_Sign Spec_Pmeth
  Proof_Asn1 Proof_Curves2 Proof_Curves3 Proof_Sign.

(** * Halves *)
Lemma half_even (l : list N) : N.testbit (N.of_nat (length l)) 0 = false <-> Nat.even (length l) = true.
Proof.
  rewrite N.bit0_odd, <- N.negb_even. rewrite negb_false_iff. rewrite !N.even_spec, Nat.even_spec. split; intros [k H].
  - exists (N.to_nat k). lia.
  - exists (N.of_nat k). lia.
Qed.
Lemma even_half (l : list N) : Nat.even (length l) = true -> exists k, length l = (2 * k)%nat /\ (length l / 2 = k)%nat.
Proof. rewrite Nat.even_spec. intros [k H]. exists k. split; [exact H|]. rewrite H, Nat.mul_comm, Nat.div_mul; [reflexivity|discriminate]. Qed.
Lemma halves_even l : Nat.even (length l) = true -> halves l = (be_val (firstn (length l / 2) l), be_val (skipn (length l / 2) l)).
Proof.
  intros H. unfold halves. f_equal. destruct (even_half l H) as [k [E Ek]]. rewrite Ek. rewrite firstn_all2; [reflexivity|]. rewrite skipn_length. lia.
Qed.
Lemma be_val_rev l : be_val (rev l) = le_val l.
Proof. unfold be_val. rewrite rev_involutive. reflexivity. Qed.
Lemma halves_rev l : Nat.even (length l) = true -> halves (rev l) = (le_val (skipn (length l / 2) l), le_val (firstn (length l / 2) l)).
Proof.
  intros H. rewrite halves_even by (rewrite rev_length; exact H). rewrite rev_length. destruct (even_half l H) as [k [E Ek]]. rewrite Ek.
  rewrite firstn_rev, skipn_rev, !be_val_rev, E. replace (2 * k - k)%nat with k by lia. reflexivity.
Qed.
Lemma sr_halves t l : Nat.even (length l) = true -> halves (if (t =? NID_dstu4145le)%Z then rev l else l) = (s_of t l, r_of t l).
Proof.
  intros H. unfold s_of, r_of. change NID_dstu4145le with le_type. destruct (t =? le_type)%Z; [apply halves_rev|apply halves_even]; exact H.
Qed.

(** * Verification *)
Lemma verify_body d2i t g d Q sb sig tbs body : 1 < c_p (g_curve g) -> g_order g <> 0 ->
  body = match d2i sig with Some c => c | None => sig end ->
  pkey_verify d2i (Some (key_of t g d Q sb)) sig tbs = true <->
  tbs <> [] /\ Nat.even (length body) = true /\ 2 * num_bytes (g_order g) <= N.of_nat (length body) /\ valid_signature g Q tbs (s_of t body) (r_of t body).
Proof.
  intros Hp Hn ->. unfold pkey_verify, key_of, pkey_group, get_order. cbn [pk_key pk_type dk_ec ek_group]. destruct (N.eqb_spec (g_order g) 0); [contradiction|].
  set (body := match d2i sig with Some c => c | None => sig end). pose proof (half_even body) as HE. destruct (N.testbit _ 0).
  - split; [discriminate|]. intros [_ [E _]]. apply HE in E. discriminate.
  - assert (E : Nat.even (length body) = true) by (apply HE; reflexivity).
    destruct (N.ltb_spec (N.of_nat (length body)) (2 * num_bytes (g_order g))); [split; [discriminate|intros [_ [_ [L _]]]; lia]|].
    transitivity (do_verify (ECKEY (Some (Binary g)) d (Some Q)) tbs (if (t =? NID_dstu4145le)%Z then rev body else body) = true).
    + destruct (t =? NID_dstu4145le)%Z; reflexivity.
    + rewrite verify_iff by assumption. rewrite sr_halves by exact E. cbn [fst snd]. tauto.
Qed.
Lemma verify_same d2i pk sig sig' tbs : match d2i sig with Some c => c | None => sig end = match d2i sig' with Some c => c | None => sig' end ->
  pkey_verify d2i pk sig tbs = pkey_verify d2i pk sig' tbs.
Proof. intros E. unfold pkey_verify. rewrite E. reflexivity. Qed.
Lemma der_enc c w : der_octets c w -> w = enc_octets c.
Proof. intros H. apply (der_len_unique c); [exact H|apply enc_octets_der]. Qed.
Lemma trailing d2i pk c w tbs t : reads_octets d2i -> N.of_nat (length c) < 2 ^ 31 -> der_octets c w ->
  pkey_verify d2i pk (w ++ t) tbs = pkey_verify d2i pk w tbs.
Proof. intros R L H. rewrite (der_enc _ _ H). apply verify_same. rewrite (reads_enc_octets d2i _ _ R) by exact L. rewrite <- (app_nil_r (enc_octets c)) at 1. rewrite (reads_enc_octets d2i _ _ R) by exact L. reflexivity. Qed.

Lemma padded_ok t body : Nat.even (length body) = true ->
  length (padded t body) = (length body + 2)%nat /\ s_of t (padded t body) = s_of t body /\ r_of t (padded t body) = r_of t body.
Proof.
  intros H. destruct (even_half body H) as [k [E Ek]]. unfold padded, s_of, r_of. rewrite Ek.
  set (h1 := firstn k body). set (h2 := skipn k body). assert (L1 : length h1 = k) by (unfold h1; rewrite firstn_length; lia).
  assert (L2 : length h2 = k) by (unfold h2; rewrite skipn_length; lia).
  assert (M : ((2 * k + 2) / 2 = k + 1)%nat) by (replace (2 * k + 2)%nat with ((k + 1) * 2)%nat by lia; rewrite Nat.div_mul; [reflexivity|discriminate]).
  destruct (t =? le_type)%Z.
  - assert (L : length (h1 ++ [0] ++ h2 ++ [0]) = (2 * k + 2)%nat) by (rewrite !app_length; cbn; lia). rewrite L, M. split; [lia|].
    replace (h1 ++ [0] ++ h2 ++ [0]) with ((h1 ++ [0]) ++ h2 ++ [0]) by (rewrite <- app_assoc; reflexivity).
    assert (L' : length (h1 ++ [0]) = (k + 1)%nat) by (rewrite app_length; cbn; lia).
    rewrite firstn_app, skipn_app, L', Nat.sub_diag. cbn [skipn]. rewrite skipn_all2 by lia. rewrite firstn_O, app_nil_r. rewrite firstn_all2 by lia.
    cbn [app]. rewrite !le_val_app. cbn [le_val]. split; lia.
  - assert (L : length ([0] ++ h1 ++ [0] ++ h2) = (2 * k + 2)%nat) by (rewrite !app_length; cbn; lia). rewrite L, M. split; [lia|].
    replace ([0] ++ h1 ++ [0] ++ h2) with ((0 :: h1) ++ 0 :: h2) by reflexivity.
    assert (L' : length (0 :: h1) = (k + 1)%nat) by (cbn; lia).
    rewrite firstn_app, skipn_app, L', Nat.sub_diag. cbn [skipn]. rewrite skipn_all2 by lia. rewrite firstn_O, app_nil_r. rewrite firstn_all2 by lia.
    cbn [app]. change (0 :: h1) with ([0] ++ h1). change (0 :: h2) with ([0] ++ h2). rewrite !be_val_app. change (be_val [0]) with 0. split; lia.
Qed.
Lemma padded_accepted d2i t g d Q sb tbs c w w' : reads_octets d2i -> 1 < c_p (g_curve g) -> g_order g <> 0 -> N.of_nat (length c) + 2 < 2 ^ 31 ->
  der_octets c w -> der_octets (padded t c) w' -> pkey_verify d2i (Some (key_of t g d Q sb)) w tbs = true ->
  pkey_verify d2i (Some (key_of t g d Q sb)) w' tbs = true.
Proof.
  intros R Hp Hn L D D' H. apply (verify_body d2i t g d Q sb w tbs c) in H; [|assumption..|rewrite (der_enc _ _ D), <- (app_nil_r (enc_octets c)), (reads_enc_octets d2i _ _ R) by lia; reflexivity].
  destruct H as [Ht [He [Hl Hv]]]. destruct (padded_ok t c He) as [PL [Ps Pr]].
  apply (verify_body d2i t g d Q sb w' tbs (padded t c)); [assumption..| |].
  - rewrite (der_enc _ _ D'), <- (app_nil_r (enc_octets _)), (reads_enc_octets d2i _ _ R); [reflexivity|]. rewrite PL. lia.
  - rewrite PL, Ps, Pr. split; [exact Ht|]. split; [|split; [lia|exact Hv]]. rewrite Nat.even_add, He. reflexivity.
Qed.
Lemma body_unique t c c' : bytes c -> bytes c' -> length c = length c' -> Nat.even (length c) = true -> s_of t c = s_of t c' -> r_of t c = r_of t c' -> c = c'.
Proof.
  intros B B' L E Hs Hr. unfold s_of, r_of in *. rewrite <- L in *. set (h := (length c / 2)%nat) in *.
  rewrite <- (firstn_skipn h c), <- (firstn_skipn h c').
  assert (LF : length (firstn h c) = length (firstn h c')) by (rewrite !firstn_length; lia).
  assert (LS : length (skipn h c) = length (skipn h c')) by (rewrite !skipn_length; lia).
  assert (BI : forall a b, bytes a -> bytes b -> length a = length b -> be_val a = be_val b -> a = b).
  { intros a b Ha Hb Hl Hv. unfold be_val in Hv. apply le_val_inj in Hv; try (apply bytes_rev; assumption); [|rewrite !rev_length; exact Hl].
    rewrite <- (rev_involutive a), Hv, rev_involutive. reflexivity. }
  destruct (t =? le_type)%Z.
  - f_equal; apply le_val_inj; auto using bytes_firstn, bytes_skipn.
  - f_equal; apply BI; auto using bytes_firstn, bytes_skipn.
Qed.
Lemma canonical_unique t c c' w w' : bytes c -> bytes c' -> length c = length c' -> Nat.even (length c) = true -> s_of t c = s_of t c' -> r_of t c = r_of t c' ->
  der_octets c w -> der_octets c' w' -> w = w'.
Proof. intros B B' L E Hs Hr D D'. rewrite (body_unique t c c') in D by assumption. apply (der_len_unique c'); assumption. Qed.

(** * Signing *)
Lemma encode_length v len b r : bn_encode v len = Some (b, r) -> length b = N.to_nat len.
Proof. unfold bn_encode. destruct (_ <? _); [discriminate|]. intros [= <- <-]. apply be_bytes_length. Qed.
Lemma do_sign_length fuel g d Q tbs src sig : do_sign fuel (ECKEY (Some (Binary g)) d Q) tbs src = Done sig -> N.of_nat (length sig) = num_bytes (g_order g) * 2.
Proof.
  unfold do_sign. cbn [ek_priv ek_group]. destruct d as [d|]; [|discriminate]. destruct (g_order g =? 0); [discriminate|]. destruct (hash_to_field _ _); [|discriminate].
  destruct (sign_loop _ _ _ _ _ _) as [| |[s r]]; [discriminate..|]. destruct (bn_encode s _) as [[bs ns]|] eqn:E1; [|discriminate]. destruct (bn_encode r _) as [[br nr]|] eqn:E2; [|discriminate].
  destruct (_ || _); [discriminate|]. intros [= <-]. rewrite app_length, (encode_length _ _ _ _ E1), (encode_length _ _ _ _ E2). lia.
Qed.
Lemma order_pos g n : get_order g = Some n -> n <> 0.
Proof. unfold get_order. destruct (N.eqb_spec (match g with Binary g => g_order g | OtherField n => n end) 0); [discriminate|]. intros [= <-]. assumption. Qed.
(** The protocol of sizes, and what is written. *)
Lemma sign_protocol pk key g n : pk_key pk = Some key -> ek_group (dk_ec key) = Some g -> get_order g = Some n ->
  let size := object_size (num_bytes n * 2) in
  forall fuel siglen tbs src,
  pkey_sign fuel (Some pk) false siglen tbs src = Done (true, size, []) /\
  (siglen < size -> pkey_sign fuel (Some pk) true siglen tbs src = Done (false, size, [])) /\
  (size <= siglen ->
    match do_sign fuel (dk_ec key) tbs src with
    | Running => pkey_sign fuel (Some pk) true siglen tbs src = Running
    | Failed => pkey_sign fuel (Some pk) true siglen tbs src = Done (false, size, [])
    | Done sg => exists w, pkey_sign fuel (Some pk) true siglen tbs src = Done (true, size, w) /\ N.of_nat (length w) = size /\
        der_octets (if (pk_type pk =? le_type)%Z then rev sg else sg) w
    end).
Proof.
  intros Hk Hg Ho size fuel siglen tbs src. unfold pkey_sign, pkey_size, pkey_group. rewrite Hk, Hg, Ho. fold size. cbn [andb].
  split; [reflexivity|]. destruct (N.ltb_spec siglen size); split; intros; try lia; [reflexivity|].
  destruct (do_sign fuel (dk_ec key) tbs src) as [| |sg] eqn:E; [reflexivity..|]. change NID_dstu4145le with le_type.
  set (c := if (pk_type pk =? le_type)%Z then rev sg else sg).
  assert (L : N.of_nat (length (enc_octets c)) = size).
  { unfold enc_octets. rewrite tlv_length. unfold size. f_equal.
    destruct (dk_ec key) as [eg d Q] eqn:Ek. cbn in Hg. subst eg. destruct g as [g|m].
    - apply do_sign_length in E. unfold get_order in Ho. destruct (N.eqb_spec (g_order g) 0); [discriminate|]. injection Ho as <-. unfold c. destruct (_ =? _)%Z; rewrite ?rev_length; exact E.
    - unfold do_sign in E. cbn in E. destruct d; discriminate. }
  exists (enc_octets c). rewrite L. split; [reflexivity|]. split; [reflexivity|]. apply enc_octets_der.
Qed.

Lemma round_trip d2i fuel t g d Q sb siglen tbs src len w : reads_octets d2i -> well_formed g -> key_pair g d Q -> ranged (g_order g) src -> num_bytes (g_order g) < 2 ^ 30 ->
  pkey_sign fuel (Some (key_of t g (Some d) Q sb)) true siglen tbs src = Done (true, len, w) ->
  (exists c, bytes c /\ N.of_nat (length c) = 2 * num_bytes (g_order g) /\ der_octets c w) /\ len = N.of_nat (length w) /\ len <= siglen /\
  forall d' sb', pkey_verify d2i (Some (key_of t g d' Q sb')) w tbs = true.
Proof.
  intros R W K Rg B H. assert (Hp := wf_p g W). assert (Hn := wf_n g W).
  assert (Ho : get_order (Binary g) = Some (g_order g)) by (unfold get_order; destruct (N.eqb_spec (g_order g) 0); [contradiction|reflexivity]).
  destruct (sign_protocol (key_of t g (Some d) Q sb) _ _ _ eq_refl eq_refl Ho fuel siglen tbs src) as [_ [H1 H2]].
  set (size := object_size _) in *. destruct (N.lt_ge_cases siglen size) as [L|L]; [rewrite (H1 L) in H; discriminate|]. specialize (H2 L).
  cbn [dk_ec pk_type key_of] in H2. destruct (do_sign _ _ _ _) as [| |sg] eqn:E; try (rewrite H2 in H; discriminate).
  destruct H2 as [w' [E' [Lw D]]]. unfold key_of in *. rewrite E' in H. injection H as <- <-.
  assert (Ht : tbs <> []) by (apply sign_iff in E; tauto). assert (Sl := do_sign_length _ _ _ _ _ _ _ E).
  apply sign_done in E as [s [r [e [k [Hs [Hr [_ [Hsg ->]]]]]]]]; [|assumption..].
  set (c := if (t =? le_type)%Z then rev (sig_bytes (g_order g) s r) else sig_bytes (g_order g) s r) in *.
  assert (Lc : N.of_nat (length c) = 2 * num_bytes (g_order g)) by (unfold c; destruct (t =? le_type)%Z; rewrite ?rev_length; lia).
  assert (Bc : bytes c) by (unfold c; destruct (t =? le_type)%Z; try apply bytes_rev; apply bytes_app; apply be_bytes_bytes).
  split; [exists c; auto|]. split; [symmetry; exact Lw|]. split; [exact L|]. intros d' sb'.
  apply (verify_body d2i t g d' Q sb' w' tbs c); [assumption..| |].
  - rewrite (der_enc _ _ D), <- (app_nil_r (enc_octets c)), (reads_enc_octets d2i _ _ R) by lia. reflexivity.
  - assert (Ec : Nat.even (length c) = true).
    { apply Nat.even_spec. exists (N.to_nat (num_bytes (g_order g))). lia. }
    split; [exact Ht|]. split; [exact Ec|]. split; [lia|].
    pose proof (sr_halves t c Ec) as SR. unfold c in SR at 1 2. change NID_dstu4145le with le_type in SR.
    assert (X : halves (sig_bytes (g_order g) s r) = (s_of t c, r_of t c)) by (rewrite <- SR; destruct (t =? le_type)%Z; rewrite ?rev_involutive; reflexivity).
    rewrite halves_sig in X by lia. injection X as <- <-. apply (sig_valid g d e); assumption.
Qed.

(** * The bare form *)
Lemma bare_same d2i pk sig tbs : reads_octets d2i -> N.of_nat (length sig) < 2 ^ 31 -> d2i sig = None -> pkey_verify d2i pk sig tbs = pkey_verify d2i pk (enc_octets sig) tbs.
Proof. intros R L E. apply verify_same. rewrite E, <- (app_nil_r (enc_octets sig)), (reads_enc_octets d2i _ _ R) by exact L. reflexivity. Qed.
Lemma bare_same_der d2i pk sig w tbs : reads_octets d2i -> N.of_nat (length sig) < 2 ^ 31 -> d2i sig = None -> der_octets sig w -> pkey_verify d2i pk sig tbs = pkey_verify d2i pk w tbs.
Proof. intros R L E D. rewrite (der_enc _ _ D). apply bare_same; assumption. Qed.
Definition bare_d : N := 0x278cf7104df549067e532add3e1e4aae59f482f77b.
Definition bare_sig : list N := [4; 40] ++ zeros 19 ++ be_bytes 21 0x1a1f6653786a68192803910a3d30b2a2018b21cd54.
Lemma bare_sign Q : pkey_sign 1 (Some (key_of be_type (std 1) (Some bare_d) Q None)) true 44 [1] (fun _ => Some 1) = Done (true, 44, enc_octets bare_sig).
Proof. vm_compute. reflexivity. Qed.
Lemma bare_d2i d2i : reads_octets d2i -> d2i bare_sig = Some (skipn 2 bare_sig).
Proof. intros R. replace bare_sig with (enc_octets (skipn 2 bare_sig) ++ []) at 1 by (vm_compute; reflexivity). apply (reads_enc_octets d2i _ _ R). vm_compute. reflexivity. Qed.
Lemma bare_rejected d2i Q : d2i bare_sig = Some (skipn 2 bare_sig) -> pkey_verify d2i (Some (key_of be_type (std 1) None Q None)) bare_sig [1] = false.
Proof.
  intros D. apply not_true_is_false. intros H. apply (verify_body _ _ _ _ _ _ _ _ (skipn 2 bare_sig)) in H; [|vm_compute; reflexivity|vm_compute; discriminate|rewrite D; reflexivity].
  destruct H as [_ [_ [L _]]]. vm_compute in L. apply L. reflexivity.
Qed.
Lemma bare_accepted d2i Q : reads_octets d2i -> key_pair (std 1) bare_d Q -> pkey_verify d2i (Some (key_of be_type (std 1) None Q None)) (enc_octets bare_sig) [1] = true.
Proof.
  intros R K. pose proof (bare_sign Q) as S. apply (round_trip d2i) in S; [|exact R|apply named; lia|exact K|intros i v [= <-]; vm_compute; reflexivity|vm_compute; reflexivity].
  destruct S as [_ [_ [_ S]]]. apply S.
Qed.
Lemma bare_range : 1 <= bare_d < g_order (std 1).
Proof. vm_compute. split; [discriminate|reflexivity]. Qed.
Lemma bare_refuted : exists g d Q sig w, group_from_nid 1161 = Some g /\ 1 <= d < g_order g /\ key_pair g d Q /\ der_octets sig w /\ forall d2i, reads_octets d2i ->
  pkey_sign 1 (Some (key_of be_type g (Some d) Q None)) true 44 [1] (fun _ => Some 1) = Done (true, 44, w) /\
  pkey_verify d2i (Some (key_of be_type g None Q None)) w [1] = true /\
  pkey_verify d2i (Some (key_of be_type g None Q None)) sig [1] = false.
Proof.
  assert (exists Q, key_pair (std 1) bare_d Q) as [Q K] by (eexists; reflexivity).
  exists (std 1), bare_d, Q, bare_sig, (enc_octets bare_sig). split; [apply from_nid|]. split; [exact bare_range|]. split; [exact K|]. split; [apply enc_octets_der|]. intros d2i R.
  split; [apply bare_sign|]. split; [apply bare_accepted; assumption|]. apply bare_rejected, bare_d2i, R.
Qed.
