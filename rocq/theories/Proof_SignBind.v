(** Proofs: what a signature says about the digest, and about the key. *)
From Coq Require Import Lia ZArith Znumtheory.
From Verif Require Import Base Lib Model_Gf2m Model_Compress Model_Ec Model_Curves Model_Sign Spec_Gf2m Spec_Compress Spec_Curves Spec_Sign
  Proof_Gf2 Proof_Field Proof_Irr Proof_Compress Proof_Ec Proof_Ec2 Proof_Curves Proof_Curves2 Proof_Curves3 Proof_Curves4 Proof_Primes Proof_Sign Proof_Sign2.

(** ** how many digests *)
Lemma accepted_point g d Q tbs sig : 1 < c_p (g_curve g) -> g_order g <> 0 ->
  do_verify (ECKEY (Some (Binary g)) d (Some Q)) tbs sig = true ->
  let half := (length sig / 2)%nat in let c := g_curve g in
  let s := be_val (firstn half sig) in let r := be_val (firstn half (skipn half sig)) in
  exists x y, padd c (pmul c s (g_gen g)) (pmul c r Q) = Some (x, y) /\ r <> 0 /\
    int_of_field (g_order g) (gmul (c_p c) (field_of_digest (degree (c_p c)) tbs) x) = r.
Proof.
  intros Hp Hn H. apply verify_iff in H; [|assumption|assumption]. cbv zeta in H |- *. destruct H as (_ & _ & Hr & x & y & E & Ei). exists x, y.
  split; [exact E|]. split; [|exact Ei]. intros H0. change (snd (halves sig) = 0) in H0. rewrite H0 in Hr. lia.
Qed.
Lemma pmul_point c k P : nonsing c -> curve_point c P -> curve_point c (pmul c k P).
Proof. intros H HP. open_c c H. rewrite !point_pt in * by assumption. apply pmul_pt; assumption. Qed.
Lemma gmul_zero_r p a : gmul p a 0 = gmul p 0 0.
Proof. unfold gmul. now rewrite !clmul_0_r. Qed.

Lemma few g d Q sig ds : well_formed g -> curve_point (g_curve g) Q ->
  Forall (fun t => do_verify (ECKEY (Some (Binary g)) d (Some Q)) t sig = true) ds ->
  NoDup (map (field_of_digest (degree (c_p (g_curve g)))) ds) ->
  N.of_nat (length ds) <= 2 ^ (degree (c_p (g_curve g)) - (N.size (g_order g) - 1)).
Proof.
  intros W HQ HV ND. pose proof (wf_p g W) as Hp. pose proof (wf_n g W) as Hn.
  set (p := c_p (g_curve g)) in *. set (n := g_order g) in *. set (m := degree p) in *.
  destruct ds as [|t0 ds0]; [cbn [length]; pose proof (N.pow_nonzero 2 (m - (N.size n - 1)) ltac:(lia)); lia|].
  set (ds := t0 :: ds0) in *.
  set (half := (length sig / 2)%nat). set (s := be_val (firstn half sig)). set (r := be_val (firstn half (skipn half sig))).
  assert (HV0 := HV). inversion HV0 as [|? ? V0 _]; subst.
  destruct (accepted_point g d Q t0 sig Hp Hn V0) as (x & y & E & Hr & Ei). fold half s r in E, Hr, Ei. fold p n m in Ei.
  assert (Ex : elem p x).
  { pose proof (wf_nonsing g W) as NS. destruct (G_pt g W) as [Gc _].
    assert (P1 : curve_point (g_curve g) (pmul (g_curve g) s (g_gen g))) by (apply pmul_point; assumption).
    assert (P2 : curve_point (g_curve g) (pmul (g_curve g) r Q)) by (apply pmul_point; assumption).
    pose proof (group_law (g_curve g) _ _ None NS P1 P2 I) as (P3 & _). rewrite E in P3. cbn [curve_point] in P3. apply P3. }
  assert (Hx0 : x <> 0).
  { intros ->. apply Hr. rewrite <- Ei. rewrite gmul_zero_r. assert (Z : gmul p 0 0 = 0) by reflexivity. rewrite Z. unfold int_of_field. apply N.mod_0_l, N.pow_nonzero. lia. }
  set (B := 2 ^ (N.size n - 1)). assert (HB : B <> 0) by (apply N.pow_nonzero; lia).
  set (v := fun t => gmul p (field_of_digest m t) x).
  assert (Hv : forall t, In t ds -> v t = B * (v t / B) + r /\ v t / B < 2 ^ (m - (N.size n - 1))).
  { intros t Ht. rewrite Forall_forall in HV. destruct (accepted_point g d Q t sig Hp Hn (HV t Ht)) as (x' & y' & E' & _ & Ei').
    fold half s r in E', Ei'. fold p n m in Ei'. rewrite E in E'. injection E' as <- <-.
    unfold int_of_field in Ei'. fold B in Ei'. fold (v t) in Ei'. split; [pose proof (N.div_mod (v t) B HB); congruence|].
    apply N.div_lt_upper_bound; [exact HB|]. unfold B. rewrite <- N.pow_add_r.
    pose proof (gmul_elem p Hp (field_of_digest m t) x) as L. unfold elem in L. fold m in L. fold (v t) in L.
    eapply N.lt_le_trans; [exact L|]. apply N.pow_le_mono_r; lia. }
  assert (Inj : forall t t', In t ds -> In t' ds -> v t / B = v t' / B -> field_of_digest m t = field_of_digest m t').
  { intros t t' Ht Ht' Eq. destruct (Hv t Ht) as [V1 _]. destruct (Hv t' Ht') as [V2 _].
    assert (Evv : v t = v t') by (rewrite V1, V2, Eq; reflexivity).
    assert (Hirr : irreducible p) by apply (wf_nonsing g W).
    apply (elem_eq p Hp); [apply (field_of_digest_elem p t Hp)|apply (field_of_digest_elem p t' Hp)|].
    apply (cancel p Hp Hirr x); [apply (nz p Hp); assumption|]. pose proof (eqm_equiv p).
    rewrite !(clmul_comm x). transitivity (v t); [symmetry; apply gmul_eqm; exact Hp|]. rewrite Evv. apply gmul_eqm. exact Hp. }
  set (K := 2 ^ (m - (N.size n - 1))) in *. clearbody K.
  assert (ND' : NoDup (map (fun t => v t / B) ds)).
  { clear - ND Inj. induction ds as [|t l IH]; [constructor|]. cbn [map] in *. inversion ND as [|? ? Hni ND1]; subst. constructor.
    - intros Hin. apply in_map_iff in Hin as (t' & Eq & Ht'). apply Hni. rewrite (Inj t t'); [apply in_map, Ht'|left; reflexivity|right; exact Ht'|symmetry; exact Eq].
    - apply IH; [exact ND1|]. intros a b Ha Hb. apply Inj; right; assumption. }
  apply (NoDup_incl_length (l' := map N.of_nat (seq 0 (N.to_nat K)))) in ND'.
  - rewrite !map_length, seq_length in ND'. lia.
  - intros w Hw. apply in_map_iff in Hw as (t & <- & Ht). destruct (Hv t Ht) as [_ L]. apply in_map_iff. exists (N.to_nat (v t / B)).
    split; [apply N2Nat.id|]. apply in_seq. revert L. generalize (v t / B). intros q L. lia.
Qed.

(** ** which digests are interchangeable *)
Lemma same_field g d Q t t' sig : 1 < c_p (g_curve g) -> g_order g <> 0 -> t <> [] -> t' <> [] ->
  field_of_digest (degree (c_p (g_curve g))) t = field_of_digest (degree (c_p (g_curve g))) t' ->
  do_verify (ECKEY (Some (Binary g)) d Q) t sig = do_verify (ECKEY (Some (Binary g)) d Q) t' sig /\
  forall fuel src, do_sign fuel (ECKEY (Some (Binary g)) d Q) t src = do_sign fuel (ECKEY (Some (Binary g)) d Q) t' src.
Proof.
  intros Hp Hn Ht Ht' E. assert (Hd : 0 < degree (c_p (g_curve g))) by (apply Proof_Field.degree_pos; exact Hp).
  assert (Eh : hash_to_field t (degree (c_p (g_curve g))) = hash_to_field t' (degree (c_p (g_curve g)))) by (rewrite !hash_ok by assumption; now rewrite E).
  split; [unfold do_verify|intros fuel src; unfold do_sign]; cbn [ek_group ek_pub ek_priv]; rewrite Eh; reflexivity.
Qed.
Lemma zero_field g d Q t sig : 1 < c_p (g_curve g) -> g_order g <> 0 -> field_of_digest (degree (c_p (g_curve g))) t = 0 ->
  do_verify (ECKEY (Some (Binary g)) d (Some Q)) t sig = false.
Proof.
  intros Hp Hn Hz. destruct (do_verify _ t sig) eqn:V; [|reflexivity]. exfalso.
  destruct (accepted_point g d Q t sig Hp Hn V) as (x & y & _ & Hr & Ei). apply Hr. rewrite <- Ei, Hz.
  assert (Z : gmul (c_p (g_curve g)) 0 x = gmul (c_p (g_curve g)) 0 0) by (unfold gmul; rewrite clmul_comm, !clmul_0_r; reflexivity).
  rewrite Z. unfold int_of_field. apply N.mod_0_l, N.pow_nonzero. lia.
Qed.

Lemma of_value v : v < 2 ^ 256 -> bytesn 32 (le_bytes 32 v) /\ le_val (le_bytes 32 v) = v.
Proof. intros H. split; [split; [apply le_bytes_bytes|apply le_bytes_length]|]. apply le_val_le_bytes_small. exact H. Qed.
Lemma val32 t : bytesn 32 t -> le_val t < 2 ^ 256.
Proof. intros [Hb Hl]. pose proof (le_val_lt t Hb) as L. rewrite Hl in L. exact L. Qed.
Lemma bytesn32_nonempty t : bytesn 32 t -> t <> [].
Proof. intros [_ H] ->. discriminate. Qed.

Lemma other_digest m t : 1 <= m -> m <= 254 -> bytesn 32 t -> exists t', bytesn 32 t' /\ t' <> t /\ field_of_digest m t' = field_of_digest m t.
Proof.
  intros H1 Hm Ht. pose proof (val32 t Ht) as L.
  assert (P0 : 2 ^ m <> 0) by (apply N.pow_nonzero; lia).
  assert (P1 : 2 ^ 255 mod 2 ^ m = 0) by (replace 255 with (255 - m + m) by lia; rewrite N.pow_add_r; apply N.mod_mul, P0).
  assert (P2 : 2 ^ 254 mod 2 ^ m = 0) by (replace 254 with (254 - m + m) by lia; rewrite N.pow_add_r; apply N.mod_mul, P0).
  assert (P3 : 1 mod 2 ^ m = 1) by (apply N.mod_small; change 1 with (2 ^ 0) at 1; apply N.pow_lt_mono_r; lia).
  assert (W : exists v, v < 2 ^ 256 /\ v <> le_val t /\ (if v =? 0 then 1 else v mod 2 ^ m) = field_of_digest m t).
  { unfold field_of_digest. destruct (N.eqb_spec (le_val t) 0) as [Hz|Hz].
    - exists 1. split; [reflexivity|]. split; [lia|]. exact P3.
    - destruct (N.ltb_spec (le_val t) (2 ^ 255)) as [Hs|Hs].
      + exists (le_val t + 2 ^ 255). split; [change (2 ^ 256) with (2 ^ 255 + 2 ^ 255); lia|]. split; [lia|].
        destruct (N.eqb_spec (le_val t + 2 ^ 255) 0); [lia|]. rewrite N.add_mod, P1, N.add_0_r, N.mod_mod by exact P0. reflexivity.
      + destruct (N.eqb_spec (le_val t) (2 ^ 255)) as [He|He].
        * exists (2 ^ 254). split; [reflexivity|]. split; [rewrite He; discriminate|]. rewrite He, P1. exact P2.
        * exists (le_val t - 2 ^ 255). split; [lia|]. split; [lia|]. destruct (N.eqb_spec (le_val t - 2 ^ 255) 0); [lia|].
          replace (le_val t) with ((le_val t - 2 ^ 255) + 2 ^ 255) at 2 by lia. rewrite N.add_mod, P1, N.add_0_r, N.mod_mod by exact P0. reflexivity. }
  destruct W as (v & Lv & Hv & E). destruct (of_value v Lv) as [Hb Ev]. exists (le_bytes 32 v). split; [exact Hb|]. split.
  - intros Et. apply Hv. rewrite <- Ev, Et. reflexivity.
  - unfold field_of_digest at 1. rewrite Ev. exact E.
Qed.
Lemma std_of_nid nid g : group_from_nid nid = Some g -> exists i, (i < 10)%nat /\ nid = (1160 + Z.of_nat i)%Z /\ g = std i /\ well_formed g.
Proof.
  intros Hg. rewrite from_nid in Hg. destruct ((1160 <=? nid) && _)%Z eqn:Hr; [|discriminate]. injection Hg as <-. exists (Z.to_nat (nid - 1160)).
  split; [lia|]. split; [lia|]. split; [reflexivity|]. apply named. lia.
Qed.
Lemma short_degree nid g : group_from_nid nid = Some g -> (nid <= 1165)%Z -> 1 <= degree (c_p (g_curve g)) <= 254.
Proof.
  intros Hg Hl. destruct (std_of_nid nid g Hg) as (i & Hi & -> & -> & _).
  destruct i as [|[|[|[|[|[|[|[|[|[|i]]]]]]]]]]; try lia; vm_compute; split; discriminate.
Qed.
Lemma long_degree nid g : group_from_nid nid = Some g -> (1166 <= nid)%Z -> 256 <= degree (c_p (g_curve g)).
Proof.
  intros Hg Hl. destruct (std_of_nid nid g Hg) as (i & Hi & -> & -> & _).
  destruct i as [|[|[|[|[|[|[|[|[|[|i]]]]]]]]]]; try lia; vm_compute; discriminate.
Qed.
Lemma short_curves nid g t : (nid <= 1165)%Z -> group_from_nid nid = Some g -> bytesn 32 t ->
  exists t', bytesn 32 t' /\ t' <> t /\ forall d Q,
    (forall sig, do_verify (ECKEY (Some (Binary g)) d Q) t' sig = do_verify (ECKEY (Some (Binary g)) d Q) t sig) /\
    forall fuel src, do_sign fuel (ECKEY (Some (Binary g)) d Q) t' src = do_sign fuel (ECKEY (Some (Binary g)) d Q) t src.
Proof.
  intros Hl Hg Ht. destruct (short_degree nid g Hg Hl) as [D1 D2]. destruct (std_of_nid nid g Hg) as (i & _ & _ & _ & W).
  destruct (other_digest _ t D1 D2 Ht) as (t' & Ht' & Hne & E). exists t'. split; [exact Ht'|]. split; [exact Hne|]. intros d Q.
  split; [intros sig|]; apply (same_field g d Q t' t); auto using wf_p, wf_n, bytesn32_nonempty.
Qed.
Lemma long_field m t t' : 256 <= m -> bytesn 32 t -> bytesn 32 t' -> field_of_digest m t = field_of_digest m t' ->
  t = t' \/ (le_val t <= 1 /\ le_val t' <= 1).
Proof.
  intros Hm Ht Ht' E. pose proof (val32 t Ht) as L. pose proof (val32 t' Ht') as L'.
  assert (Le : 2 ^ 256 <= 2 ^ m) by (apply N.pow_le_mono_r; lia).
  unfold field_of_digest in E. rewrite !N.mod_small in E by (eapply N.lt_le_trans; eassumption).
  destruct (N.eqb_spec (le_val t) 0) as [Z|Z], (N.eqb_spec (le_val t') 0) as [Z'|Z']; try (right; lia).
  left. apply le_val_inj; [apply Ht|apply Ht'|rewrite (proj2 Ht), (proj2 Ht'); reflexivity|exact E].
Qed.
Lemma one_zero m : 1 <= m -> field_of_digest m (1 :: zeros 31) = field_of_digest m (zeros 32).
Proof. intros Hm. unfold field_of_digest. cbn. apply N.mod_small. change 1 with (2 ^ 0) at 1. apply N.pow_lt_mono_r; lia. Qed.
Lemma one_is_zero nid g d Q sig : group_from_nid nid = Some g ->
  do_verify (ECKEY (Some (Binary g)) d Q) (1 :: zeros 31) sig = do_verify (ECKEY (Some (Binary g)) d Q) (zeros 32) sig.
Proof.
  intros Hg. destruct (std_of_nid nid g Hg) as (i & _ & _ & _ & W). pose proof (wf_p g W) as Hp.
  apply same_field; auto using wf_n; try discriminate. apply one_zero.
  pose proof (Proof_Field.degree_pos _ Hp). lia.
Qed.
Lemma std_excess nid g : group_from_nid nid = Some g -> degree (c_p (g_curve g)) - (N.size (g_order g) - 1) <= 2.
Proof.
  intros Hg. destruct (std_of_nid nid g Hg) as (i & Hi & -> & -> & _).
  destruct i as [|[|[|[|[|[|[|[|[|[|i]]]]]]]]]]; try lia; vm_compute; discriminate.
Qed.
Lemma std_few nid g d Q sig ds : group_from_nid nid = Some g -> (1166 <= nid)%Z -> curve_point (g_curve g) Q ->
  Forall (bytesn 32) ds -> NoDup ds -> ~ In (zeros 32) ds ->
  Forall (fun t => do_verify (ECKEY (Some (Binary g)) d (Some Q)) t sig = true) ds -> (length ds <= 4)%nat.
Proof.
  intros Hg Hl HQ HB ND N0 HV. destruct (std_of_nid nid g Hg) as (i & _ & _ & _ & W).
  pose proof (long_degree nid g Hg Hl) as Hm.
  assert (ND' : NoDup (map (field_of_digest (degree (c_p (g_curve g)))) ds)).
  { apply nodup_map_in; [|exact ND]. intros x y Hx Hy E. rewrite Forall_forall in HB.
    destruct (long_field _ x y Hm (HB x Hx) (HB y Hy) E) as [H|[H1 H2]]; [exact H|].
    assert (NZ : forall z, In z ds -> le_val z <> 0).
    { intros z Hz E0. apply N0. replace (zeros 32) with z; [exact Hz|]. apply le_val_inj; [apply (HB z Hz)|apply bytes_zeros|rewrite (proj2 (HB z Hz)); reflexivity|].
      rewrite E0. symmetry. apply le_val_zeros. }
    pose proof (NZ x Hx). pose proof (NZ y Hy).
    apply le_val_inj; [apply (HB x Hx)|apply (HB y Hy)|rewrite (proj2 (HB x Hx)), (proj2 (HB y Hy)); reflexivity|lia]. }
  pose proof (few g d Q sig ds W HQ HV ND') as F. pose proof (std_excess nid g Hg) as X.
  assert (2 ^ (degree (c_p (g_curve g)) - (N.size (g_order g) - 1)) <= 2 ^ 2) by (apply N.pow_le_mono_r; lia). change (2 ^ 2) with 4 in *. lia.
Qed.

(** ** arithmetic modulo the order *)
Lemma mod_div n a b : n <> 0 -> a mod n = b mod n <-> (Z.of_N n | Z.of_N a - Z.of_N b)%Z.
Proof.
  intros Hn. split.
  - intros E. exists (Z.of_N (a / n) - Z.of_N (b / n))%Z. pose proof (N.div_mod a n Hn) as A. pose proof (N.div_mod b n Hn) as B. rewrite E in A. nia.
  - intros D. apply N2Z.inj. rewrite !N2Z.inj_mod. destruct D as [k Hk].
    replace (Z.of_N a) with (Z.of_N b + k * Z.of_N n)%Z by lia. apply Z.mod_add. lia.
Qed.
Lemma divide_small n a b : (Z.of_N n | Z.of_N a - Z.of_N b)%Z -> a < n -> b < n -> a = b.
Proof. intros [k Hk] Ha Hb. assert (k = 0)%Z by nia. subst k. lia. Qed.

(** Two signatures with one nonce. *)
Lemma one_nonce n e d s1 r1 s2 r2 d' : prime (Z.of_N n) -> s1 = (e + d * r1) mod n -> s2 = (e + d * r2) mod n -> r1 < n -> r2 < n -> r1 <> r2 -> d < n -> d' < n ->
  (s1 + d' * r2) mod n = (s2 + d' * r1) mod n <-> d' = d.
Proof.
  intros Pr E1 E2 L1 L2 Hne Hd Hd'. assert (Hn : n <> 0) by lia.
  assert (D1 : (Z.of_N n | Z.of_N s1 - Z.of_N (e + d * r1))%Z) by (apply mod_div; [exact Hn|]; rewrite E1; apply N.mod_mod, Hn).
  assert (D2 : (Z.of_N n | Z.of_N s2 - Z.of_N (e + d * r2))%Z) by (apply mod_div; [exact Hn|]; rewrite E2; apply N.mod_mod, Hn).
  assert (X : (Z.of_N n | Z.of_N (s1 + d' * r2) - Z.of_N (s2 + d' * r1) - (Z.of_N d - Z.of_N d') * (Z.of_N r1 - Z.of_N r2))%Z).
  { replace (Z.of_N (s1 + d' * r2) - Z.of_N (s2 + d' * r1) - (Z.of_N d - Z.of_N d') * (Z.of_N r1 - Z.of_N r2))%Z
      with ((Z.of_N s1 - Z.of_N (e + d * r1)) - (Z.of_N s2 - Z.of_N (e + d * r2)))%Z by lia. apply Z.divide_sub_r; assumption. }
  rewrite (mod_div n _ _ Hn). split.
  - intros D. assert (Y : (Z.of_N n | (Z.of_N d - Z.of_N d') * (Z.of_N r1 - Z.of_N r2))%Z).
    { replace ((Z.of_N d - Z.of_N d') * (Z.of_N r1 - Z.of_N r2))%Z
        with ((Z.of_N (s1 + d' * r2) - Z.of_N (s2 + d' * r1)) - (Z.of_N (s1 + d' * r2) - Z.of_N (s2 + d' * r1) - (Z.of_N d - Z.of_N d') * (Z.of_N r1 - Z.of_N r2)))%Z by lia.
      apply Z.divide_sub_r; assumption. }
    apply prime_mult in Y; [|exact Pr]. destruct Y as [Y|Y]; [symmetry; eapply divide_small; eassumption|].
    exfalso. apply Hne. eapply divide_small; eassumption.
  - intros ->. rewrite Z.sub_diag, Z.mul_0_l, Z.sub_0_r in X. exact X.
Qed.
Lemma known_nonce n e d s r d' : prime (Z.of_N n) -> s = (e + d * r) mod n -> 1 <= r < n -> d < n -> d' < n ->
  s = (e + d' * r) mod n <-> d' = d.
Proof.
  intros Pr E Hr Hd Hd'. assert (Hn : n <> 0) by lia. split; [|intros ->; exact E]. intros E'. rewrite E in E'. apply (mod_div n _ _ Hn) in E'.
  replace (Z.of_N (e + d * r) - Z.of_N (e + d' * r))%Z with ((Z.of_N d - Z.of_N d') * Z.of_N r)%Z in E' by lia.
  apply prime_mult in E'; [|exact Pr]. destruct E' as [Y|Y]; [symmetry; eapply divide_small; eassumption|].
  exfalso. apply Z.divide_pos_le in Y; lia.
Qed.

Lemma sign_one_nonce f1 f2 g d Q t1 t2 e sig1 sig2 d' : well_formed g -> prime (Z.of_N (g_order g)) -> d < g_order g -> d' < g_order g -> e < g_order g ->
  let key := ECKEY (Some (Binary g)) (Some d) Q in let n := g_order g in
  do_sign f1 key t1 (fun _ => Some e) = Done sig1 -> do_sign f2 key t2 (fun _ => Some e) = Done sig2 ->
  let size := N.to_nat (num_bytes n) in
  let s1 := be_val (firstn size sig1) in let r1 := be_val (skipn size sig1) in
  let s2 := be_val (firstn size sig2) in let r2 := be_val (skipn size sig2) in
  r1 <> r2 -> ((s1 + d' * r2) mod n = (s2 + d' * r1) mod n <-> d' = d).
Proof.
  cbv zeta. intros W Pr Hd Hd' He H1 H2.
  assert (R : ranged (g_order g) (fun _ => Some e)) by (intros i v [= <-]; exact He).
  apply sign_format in H1; [|apply wf_p, W|apply wf_n, W|exact R]. apply sign_format in H2; [|apply wf_p, W|apply wf_n, W|exact R].
  cbv zeta in H1, H2 |- *. destruct H1 as (_ & _ & s1 & r1 & e1 & k1 & S1 & R1 & -> & -> & [= <-] & x1 & y1 & _ & _ & E1).
  destruct H2 as (_ & _ & s2 & r2 & e2 & k2 & S2 & R2 & -> & -> & [= <-] & x2 & y2 & _ & _ & E2).
  intros Hne. apply (one_nonce (g_order g) e); try assumption; [apply R1|apply R2].
Qed.
Lemma sign_known_nonce fuel g d Q t src sig : well_formed g -> prime (Z.of_N (g_order g)) -> d < g_order g -> ranged (g_order g) src ->
  let key := ECKEY (Some (Binary g)) (Some d) Q in let n := g_order g in
  do_sign fuel key t src = Done sig ->
  let size := N.to_nat (num_bytes n) in
  let s := be_val (firstn size sig) in let r := be_val (skipn size sig) in
  exists k e, src k = Some e /\ forall d', d' < n -> (s = (e + d' * r) mod n <-> d' = d).
Proof.
  cbv zeta. intros W Pr Hd R H. apply sign_format in H; [|apply wf_p, W|apply wf_n, W|exact R].
  cbv zeta in H |- *. destruct H as (_ & _ & s & r & e & k & S1 & R1 & -> & -> & Hk & x1 & y1 & _ & _ & E1).
  exists k, e. split; [exact Hk|]. intros d' Hd'. apply (known_nonce (g_order g) e d s r d'); assumption.
Qed.

(** The other signature of the signer. *)
Lemma second_valid g d Q t s r : well_formed g -> key_pair g d Q -> valid_signature g Q t s r ->
  let n := g_order g in let s' := (2 * d * r + (n - s)) mod n in
  s' <> 0 -> valid_signature g Q t s' r.
Proof.
  intros W K (Hs & Hr & x & y & E & Ei) n s' H0. fold n in Hs, Hr, Ei. assert (Hn : n <> 0) by lia.
  split; [split; [lia|apply N.mod_lt, Hn]|]. split; [exact Hr|].
  set (e := (s + (n - (d * r) mod n)) mod n).
  assert (Le : e < n) by (apply N.mod_lt, Hn).
  assert (Lm : (d * r) mod n < n) by (apply N.mod_lt, Hn).
  assert (De : (Z.of_N n | Z.of_N e - (Z.of_N s + (Z.of_N n - Z.of_N ((d * r) mod n))))%Z).
  { replace (Z.of_N s + (Z.of_N n - Z.of_N ((d * r) mod n)))%Z with (Z.of_N (s + (n - (d * r) mod n))) by lia. apply mod_div; [exact Hn|]. apply N.mod_mod, Hn. }
  assert (Dm : (Z.of_N n | Z.of_N ((d * r) mod n) - Z.of_N (d * r))%Z) by (apply mod_div; [exact Hn|]; apply N.mod_mod, Hn).
  assert (Dn : (Z.of_N n | Z.of_N n)%Z) by apply Z.divide_refl.
  assert (Es : s mod n = (e + d * r) mod n).
  { apply mod_div; [exact Hn|]. replace (Z.of_N s - Z.of_N (e + d * r))%Z
      with ((Z.of_N ((d * r) mod n) - Z.of_N (d * r)) - (Z.of_N e - (Z.of_N s + (Z.of_N n - Z.of_N ((d * r) mod n)))) - Z.of_N n)%Z by lia.
    apply Z.divide_sub_r; [apply Z.divide_sub_r|]; assumption. }
  assert (Es' : s' mod n = ((n - e) + d * r) mod n).
  { unfold s'. rewrite N.mod_mod by exact Hn. apply mod_div; [exact Hn|].
    apply (mod_div n s (e + d * r) Hn) in Es.
    replace (Z.of_N (2 * d * r + (n - s)) - Z.of_N (n - e + d * r))%Z with (- (Z.of_N s - Z.of_N (e + d * r)))%Z by lia.
    apply Z.divide_opp_r. exact Es. }
  pose proof (wf_nonsing _ W) as NS. pose proof (gen_point g W) as GP. pose proof (killed g W) as KI. rewrite K in E |- *.
  assert (V : forall u v, u mod n = (v + d * r) mod n -> padd (g_curve g) (pmul (g_curve g) u (g_gen g)) (pmul (g_curve g) r (pneg (pmul (g_curve g) d (g_gen g)))) = pmul (g_curve g) v (g_gen g)).
  { clear - NS GP KI Hn. subst n. revert NS GP KI Hn. destruct g as [c G n h]. cbn [g_curve g_gen g_order]. intros NS GP KI Hn u v Huv.
    open_c c NS. rewrite point_pt in GP by assumption. apply (verify_eq p a b Hp Hirr Ha Hb Hb0 n); assumption. }
  rewrite (V s e Es) in E. rewrite (V s' (n - e) Es').
  rewrite (pmul_minus (g_curve g) n e (g_gen g) NS GP KI) by lia. rewrite E. exists x, (N.lxor x y). split; [reflexivity|exact Ei].
Qed.
Lemma second_accepted g d Q t sig : well_formed g -> key_pair g d Q ->
  do_verify (ECKEY (Some (Binary g)) None (Some Q)) t sig = true ->
  let n := g_order g in let size := N.to_nat (num_bytes n) in let half := (length sig / 2)%nat in
  let s := be_val (firstn half sig) in let r := be_val (firstn half (skipn half sig)) in
  let s' := (2 * d * r + (n - s)) mod n in
  s' <> 0 -> do_verify (ECKEY (Some (Binary g)) None (Some Q)) t (be_bytes size s' ++ be_bytes size r) = true.
Proof.
  intros W K V n size half s r s' H0. pose proof (wf_p g W) as Hp. pose proof (wf_n g W) as Hn. apply verify_iff in V; [|assumption|assumption].
  cbv zeta in V. destruct V as [Ht V]. change (valid_signature g Q t s r) in V. apply verify_iff; [assumption|assumption|]. cbv zeta. split; [exact Ht|].
  assert (Ls : s' < n) by (apply N.mod_lt, Hn). assert (Lr : r < n) by (destruct V as (_ & Hr & _); apply Hr).
  pose proof (second_valid g d Q t s r W K V H0) as V'. pose proof (halves_sig n s' r Ls Lr) as HS.
  change (sig_bytes n s' r) with (be_bytes size s' ++ be_bytes size r) in HS.
  change (valid_signature g Q t (fst (halves (be_bytes size s' ++ be_bytes size r))) (snd (halves (be_bytes size s' ++ be_bytes size r)))).
  rewrite HS. exact V'.
Qed.
