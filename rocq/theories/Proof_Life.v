(** From the generation of a key on a standard curve to the use of what was stored. *)
From Coq Require Import Lia ZArith Znumtheory.
From Verif Require Import Base Lib Model_Params Model_Gf2m Model_Compress Model_Ec Model_Utils Model_Curves Model_Sign Model_Asn1 Model_Pmeth Model_Key Model_Ameth
  Spec_Gf2m Spec_Compress Spec_Curves Spec_Asn1 Spec_Sign Spec_Pmeth Spec_Key
  Proof_Gf2 Proof_Field Proof_Compress Proof_Compress2 Proof_Curves2 Proof_Curves3 Proof_Curves4 Proof_Sign Proof_Sign2 Proof_Primes Proof_Pmeth Proof_Key Proof_Key2.

Lemma std_api i : (i < 10)%nat -> api_group (std i) /\ g_cofactor (std i) = 1 /\ num_bytes (g_order (std i)) < 2 ^ 30.
Proof.
  intros H. assert (B : let g := std i in ((weight (c_p (g_curve g)) =? 3) || (weight (c_p (g_curve g)) =? 5)) && (1 <=? g_order g) &&
    (N.size (g_order g) <=? N.size (c_p (g_curve g)) + 1) && (degree (c_p (g_curve g)) <? 2 ^ 30) && (g_cofactor g =? 1) && (num_bytes (g_order g) <? 2 ^ 30) = true).
  { do 10 try (destruct i as [|i]); [vm_compute; reflexivity ..|exfalso; lia]. }
  cbv zeta in B. rewrite !andb_true_iff, orb_true_iff, !N.eqb_eq, !N.leb_le, !N.ltb_lt in B. unfold api_group. tauto.
Qed.
Lemma nid_facts nid g : group_from_nid nid = Some g -> well_formed g /\ api_group g /\ g_cofactor g = 1 /\ num_bytes (g_order g) < 2 ^ 30 /\ curve_nid_from_group g <> 0%Z /\ prime (Z.of_N (g_order g)).
Proof.
  intros E. pose proof (nid_prime nid g E) as P. rewrite from_nid in E. destruct ((1160 <=? nid) && (nid <=? 1169))%Z eqn:B; [|discriminate]. injection E as <-.
  apply andb_true_iff in B. destruct B as (B1 & B2). apply Z.leb_le in B1. apply Z.leb_le in B2. set (i := Z.to_nat (nid - 1160)) in *. assert (Hi : (i < 10)%nat) by lia. clearbody i.
  destruct (std_api i Hi) as (A & C & N0). split; [apply named, Hi|]. split; [exact A|]. split; [exact C|]. split; [exact N0|]. split; [|exact P]. rewrite nid_std by exact Hi. lia.
Qed.
Lemma trace_bit p y : 1 < p -> irreducible p -> elem p y -> trace_of p y = 0 \/ trace_of p y = 1.
Proof.
  intros Hp Hirr Y. destruct (trace_of_tr p Hp y Y) as [E1 E2]. destruct (tr_bool p Hp Hirr y) as [t Et]. pose proof (eqm_equiv p).
  destruct t; [right|left]; (apply (elem_eq p Hp); [exact E2|apply (b2_elem p Hp true) || apply (b2_elem p Hp false)|]; etransitivity; [exact E1|exact Et]).
Qed.
(** Public keys of private keys 0 < d < n. *)
Lemma pair_finite nid g d Q : group_from_nid nid = Some g -> 0 < d < g_order g -> key_pair g d Q -> exists x y, Q = Some (x, y).
Proof.
  intros E L K. destruct (nid_facts nid g E) as (W & _ & _ & _ & _ & P). unfold key_pair in K. destruct Q as [[x y]|]; [eauto|exfalso].
  assert (Z0 : pmul (g_curve g) d (g_gen g) = None) by (destruct (pmul (g_curve g) d (g_gen g)) as [[? ?]|]; [discriminate|reflexivity]).
  apply (order_exact g W P) in Z0. destruct Z0 as (q & D). destruct (N.eq_dec q 0) as [-> | Hq]; [lia|nia].
Qed.
Lemma pair_injective nid g d d' Q : group_from_nid nid = Some g -> d < g_order g -> d' < g_order g -> key_pair g d Q -> key_pair g d' Q -> d = d'.
Proof.
  intros E L L' K K'. destruct (nid_facts nid g E) as (W & _ & _ & _ & _ & P). unfold key_pair in *. apply (mul_inj g W P); [assumption..|]. apply neg_inj. congruence.
Qed.
Lemma pair_multiple nid g d Q : group_from_nid nid = Some g -> d <= g_order g -> key_pair g d Q -> Q = pmul (g_curve g) (g_order g - d) (g_gen g).
Proof.
  intros E L ->. destruct (nid_facts nid g E) as (W & _). destruct (wf_nonsing g W) as (Hirr & Ha & Hb & Hb0). pose proof (gen_point g W) as GP. pose proof (killed g W) as KL. destruct g as [[p a b] G n h]. cbn [g_curve g_gen g_order c_p c_a c_b] in *.
  symmetry. apply Proof_Ec2.pmul_sub; try assumption; [apply Hirr|]. apply point_pt; [apply Hirr|assumption..].
Qed.
Lemma pair_form nid g d x y : group_from_nid nid = Some g -> nid <> 1160%Z -> nid <> 1168%Z -> d <= g_order g -> key_pair g d (Some (x, y)) -> has_compressed_form (g_curve g) (Some (x, y)).
Proof.
  intros E N1 N2 L K. pose proof (pair_multiple nid g d _ E L K) as M. symmetry in M. destruct (nid_facts nid g E) as (W & _). destruct (multiples_compressible g _ x y W M) as [OC CO].
  destruct (succeeds_std nid g x y (field_size (g_curve g)) E N1 N2 OC CO ltac:(lia)) as [out S]. cbn.
  destruct (N.eq_dec x 1) as [E1|]; [|left; assumption]. right.
  assert (T : trace_of (c_p (g_curve g)) y = 0 \/ trace_of (c_p (g_curve g)) y = 1).
  { destruct (dstu_parts _ (proj1 W)) as [p [a [b [Ec [Hp [Hirr _]]]]]]. rewrite Ec in *. destruct OC as [_ [Hy _]]. cbn [c_p] in *. apply trace_bit; assumption. }
  destruct T as [T|T]; [exfalso|exact T]. assert (X : compress (g_curve g) (Some (x, y)) (field_size (g_curve g)) = None); [|congruence].
  apply compress_fails_iff; [apply W|exact OC|lia|]. auto.
Qed.

(** Generation, storage, loading, signature and verification. *)
Lemma lifetime d2i d2o solve nid g t sb fuel d0 q0 src k : reads_params d2i -> reads_octets d2o -> group_from_nid nid = Some g -> good_solver (c_p (g_curve g)) solve ->
  key_type t -> sbox_ok sb -> ranged (g_order g) src -> generate_key fuel (ECKEY (Some (Binary g)) d0 q0) src = Done k ->
  (nid <> 1160 /\ nid <> 1168)%Z \/ (forall P, ek_pub k = Some P -> has_compressed_form (g_curve g) P) ->
  exists p8 pub kd kv, priv_encode (PKEY t (Some (DKEY k sb))) = Ok p8 /\ pub_encode (PKEY t (Some (DKEY k sb))) = Ok pub /\
    priv_decode d2i solve p8 = Some kd /\ pub_decode d2i d2o solve pub = Some kv /\
    forall fuel siglen tbs src len w, ranged (g_order g) src -> pkey_sign fuel (Some kd) true siglen tbs src = Done (true, len, w) ->
      pkey_verify d2o (Some kv) w tbs = true /\ pkey_verify d2o (Some kd) w tbs = true /\ pkey_verify d2o (Some (PKEY t (Some (DKEY k sb)))) w tbs = true.
Proof.
  intros R RO E GS KT SB RG GK NC. destruct (nid_facts nid g E) as (W & AG & CO & NB & NI & P).
  destruct (generate_pair fuel g d0 q0 src k W RG GK) as (d & Q & -> & L & K).
  destruct (pair_finite nid g d Q E ltac:(lia) K) as (x & y & ->).
  assert (F : has_compressed_form (g_curve g) (Some (x, y))) by (destruct NC as [[N1 N2]|NC]; [exact (pair_form nid g d x y E N1 N2 ltac:(lia) K)|apply NC; reflexivity]). pose proof (pair_multiple nid g d _ E ltac:(lia) K) as M. symmetry in M.
  destruct (priv_total t g d (Some (x, y)) sb KT W AG (or_introl NI) ltac:(lia)) as [p8 E8].
  destruct (pub_encodes t g (Some d) _ x y sb KT W AG (or_introl NI) M) as [_ PE]. destruct (PE F) as [pub Ep].
  destruct (priv_keeps d2i solve t g d _ sb p8 R W AG GS SB CO K E8) as (sb1 & S1 & D1).
  destruct (pub_keeps d2i d2o solve t g (Some d) _ x y sb pub R RO W AG GS SB CO M Ep) as (sb2 & S2 & D2).
  exists p8, pub, (key_of t g (Some d) (Some (x, y)) sb1), (key_of t g None (Some (x, y)) sb2).
  split; [exact E8|]. split; [exact Ep|]. split; [exact D1|]. split; [exact D2|].
  intros fuel' siglen tbs src' len w RG' SG.
  destruct (round_trip d2o fuel' t g d (Some (x, y)) sb1 siglen tbs src' len w RO W K RG' NB SG) as (_ & _ & _ & V).
  split; [apply V|]. split; apply V.
Qed.

(** The same facts about keys. *)
Lemma add_finite nid g d q k : group_from_nid nid = Some g -> 0 < d < g_order g -> add_public_key (ECKEY (Some (Binary g)) (Some d) q) = Some k ->
  exists x y, ek_pub k = Some (Some (x, y)) /\ on_curve (g_curve g) x y.
Proof.
  intros E L [= <-]. cbn [ek_pub]. destruct (pair_finite nid g d _ E L eq_refl) as (x & y & H). exists x, y. rewrite H. split; [reflexivity|].
  pose proof (pair_multiple nid g d _ E ltac:(lia) (eq_sym H)) as M. symmetry in M. destruct (nid_facts nid g E) as (W & _). apply (multiples_compressible g _ x y W M).
Qed.
Lemma add_injective nid g d d' q q' k k' : group_from_nid nid = Some g -> d < g_order g -> d' < g_order g ->
  add_public_key (ECKEY (Some (Binary g)) (Some d) q) = Some k -> add_public_key (ECKEY (Some (Binary g)) (Some d') q') = Some k' -> ek_pub k = ek_pub k' -> d = d'.
Proof.
  intros E L L' [= <-] [= <-] [= H]. cbn [ek_pub] in *. apply (pair_injective nid g d d' (pneg (pmul (g_curve g) d (g_gen g))) E L L'); [reflexivity|exact H].
Qed.
Lemma gen_order nid g k : group_from_nid nid = Some g -> (pmul (g_curve g) k (g_gen g) = None <-> N.divide (g_order g) k).
Proof. intros E. destruct (nid_facts nid g E) as (W & _ & _ & _ & _ & P). apply order_exact; assumption. Qed.

(** * Sizes *)
Lemma sign_size pk fuel siglen tbs src len w : pkey_sign fuel (Some pk) true siglen tbs src = Done (true, len, w) -> len = pkey_size pk /\ N.of_nat (length w) = pkey_size pk /\ pkey_size pk <= siglen.
Proof.
  intros H. destruct (pk_key pk) as [key|] eqn:Ek; [|unfold pkey_sign in H; rewrite Ek in H; discriminate].
  destruct (ek_group (dk_ec key)) as [g|] eqn:Eg; [|unfold pkey_sign, pkey_group in H; rewrite Ek, Eg in H; discriminate].
  destruct (get_order g) as [n|] eqn:Eo; [|unfold pkey_sign, pkey_group in H; rewrite Ek, Eg, Eo in H; discriminate].
  destruct (Proof_Pmeth.sign_protocol pk key g n Ek Eg Eo fuel siglen tbs src) as [_ [H1 H2]]. assert (E : pkey_size pk = object_size (num_bytes n * 2)) by (unfold pkey_size, pkey_group; rewrite Ek, Eg, Eo; reflexivity).
  rewrite <- E in H1, H2. destruct (N.lt_ge_cases siglen (pkey_size pk)) as [L|L]; [rewrite (H1 L) in H; discriminate|]. specialize (H2 L).
  destruct (do_sign _ _ _ _); try (rewrite H2 in H; discriminate). destruct H2 as [w' [E' [Lw _]]]. rewrite E' in H. injection H as <- <-. auto.
Qed.
Lemma std_sizes nid g t d q sb : group_from_nid nid = Some g ->
  In (nid, pkey_bits (PKEY t (Some (DKEY (ECKEY (Some (Binary g)) d q) sb))), pkey_size (PKEY t (Some (DKEY (ECKEY (Some (Binary g)) d q) sb))))
    [(1160%Z, 163, 44); (1161%Z, 167, 44); (1162%Z, 173, 46); (1163%Z, 179, 48); (1164%Z, 191, 50); (1165%Z, 233, 62); (1166%Z, 257, 66); (1167%Z, 307, 80); (1168%Z, 367, 94); (1169%Z, 431, 110)].
Proof.
  intros E. pose proof (from_nid nid) as FN. rewrite E in FN. destruct (Z.leb_spec 1160 nid); [|discriminate]. destruct (Z.leb_spec nid 1169); [|discriminate]. injection FN as ->.
  assert (X : exists i, nid = (1160 + Z.of_nat i)%Z /\ (i < 10)%nat) by (exists (Z.to_nat (nid - 1160)); lia). destruct X as [i [-> Hi]]. replace (Z.to_nat (1160 + Z.of_nat i - 1160)) with i by lia. clear - Hi.
  do 10 try (destruct i as [|i]; [vm_compute; tauto|]). lia.
Qed.
