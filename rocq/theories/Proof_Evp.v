(** Signing and verifying messages in pieces. *)
From Coq Require Import Lia ZArith Znumtheory.
From Verif Require Import Base Lib Model_Gost89 Model_Params Model_Hash Spec_Gost89 Spec_Params Spec_Hash Spec_Md Proof_Md.
From Verif Require Import Model_Gf2m Model_Compress Model_Ec Model_Utils Model_Curves Model_Sign Model_Asn1 Model_Pmeth Model_Key Model_Ameth Model_Evp
  Spec_Gf2m Spec_Compress Spec_Curves Spec_Asn1 Spec_Sign Spec_Pmeth Spec_Key
  Proof_Compress2 Proof_Curves3 Proof_Sign2 Proof_Pmeth Proof_Key Proof_Key2 Proof_Life.

Definition tail_ops h' c' : list md_op := [MAlloc 1 h' c'; MCopy 1 0; MFinal 1; MCleanup 1; MFree 1].
Lemma tail_digest h' c' : forall ds a sb m, a 0%nat = Active sb m -> Forall bytes ds -> hashable (length m + length (concat ds)) ->
  legal a (map (MUpdate 0) ds ++ tail_ops h' c') /\ spec_outs a (map (MUpdate 0) ds ++ tail_ops h' c') = [digest (packed_sbox sb) (m ++ concat ds)].
Proof.
  induction ds as [|d ds IH]; intros a sb m Ea Hd Hh.
  - cbn [map app concat]. rewrite app_nil_r. unfold tail_ops. cbn [legal spec_outs spec_op fst snd legal_op]. cbv zeta. unfold sset. cbn [Nat.eqb]. rewrite Ea. cbn [fst snd app Nat.eqb]. split; [|reflexivity]. repeat split; discriminate.
  - inversion Hd as [|? ? Hd1 Hd2]; subst. cbn [map app legal spec_outs spec_op fst snd legal_op concat] in *. rewrite Ea. cbv zeta. cbn [fst snd].
    rewrite app_length in Hh. destruct (IH (sset a 0 (Active sb (m ++ d))) sb (m ++ d)) as [A B].
    + apply sset_same.
    + exact Hd2.
    + unfold hashable in *. rewrite app_length. lia.
    + split; [split; [split; [exact Hd1|unfold hashable in *; lia]|exact A]|]. rewrite B, app_assoc. reflexivity.
Qed.
Lemma selected_effective t k sb : selected (md_key_of (PKEY t (Some (DKEY k sb)))) = effective sb.
Proof. destruct sb; reflexivity. Qed.
Lemma effective_bytes sb : sbox_ok sb -> bytesn 64 (effective sb).
Proof. destruct sb as [s|]; [intros H; exact H|]. intros _. split; [|reflexivity]. apply bytesb_ok. vm_compute. reflexivity. Qed.
Lemma evp_digest_ok h h' c c' t k sb ds : sbox_ok sb -> Forall bytes ds -> hashable (length (concat ds)) ->
  evp_digest h h' c c' (PKEY t (Some (DKEY k sb))) ds = Some (digest (packed_sbox (effective sb)) (concat ds)).
Proof.
  intros Hs Hd Hh. set (pk := PKEY t _). pose proof (effective_bytes sb Hs) as Hb. pose proof (selected_effective t k sb) as Es. fold pk in Es.
  destruct (tail_digest h' c' ds (sset (sset no_slots 0 Raw) 0 (Active (selected (md_key_of pk)) [])) (selected (md_key_of pk)) [] (sset_same _ _ _) Hd Hh) as [A B].
  destruct (md_refines (MAlloc 0 h c :: MInit 0 (md_key_of pk) :: map (MUpdate 0) ds ++ tail_ops h' c')) as (st & E).
  { cbn [legal legal_op spec_op fst]. split; [exact I|]. split; [|exact A]. split; [discriminate|rewrite Es; exact Hb]. }
  unfold evp_digest. fold (tail_ops h' c'). rewrite E. cbn [spec_outs spec_op fst snd]. cbv zeta. cbn [fst snd]. rewrite B, Es. reflexivity.
Qed.
Lemma digest_sign_ok h h' c c' fuel t k sb ds siglen src : sbox_ok sb -> Forall bytes ds -> hashable (length (concat ds)) ->
  digest_sign h h' c c' fuel (PKEY t (Some (DKEY k sb))) ds siglen src = Some (pkey_sign fuel (Some (PKEY t (Some (DKEY k sb)))) true siglen (digest (packed_sbox (effective sb)) (concat ds)) src).
Proof. intros. unfold digest_sign. rewrite evp_digest_ok by assumption. reflexivity. Qed.
Lemma digest_verify_ok h h' c c' d2o t k sb ds sig : sbox_ok sb -> Forall bytes ds -> hashable (length (concat ds)) ->
  digest_verify h h' c c' d2o (PKEY t (Some (DKEY k sb))) ds sig = Some (pkey_verify d2o (Some (PKEY t (Some (DKEY k sb)))) sig (digest (packed_sbox (effective sb)) (concat ds))).
Proof. intros. unfold digest_verify. rewrite evp_digest_ok by assumption. reflexivity. Qed.
Lemma stored_ok sb : sbox_ok sb -> sbox_ok (stored sb).
Proof. destruct sb as [s|]; [|intros _; exact I]. unfold stored. intros H. destruct (is_default_sbox s); [exact I|exact H]. Qed.

(** Generation, storage, loading; signing a message in pieces; verifying it, or another
    with the same digest. *)
Lemma message_lifetime_gen d2i d2o solve nid g t sb fuel d0 q0 src k : reads_params d2i -> reads_octets d2o -> group_from_nid nid = Some g -> good_solver (c_p (g_curve g)) solve ->
  key_type t -> sbox_ok sb -> ranged (g_order g) src -> generate_key fuel (ECKEY (Some (Binary g)) d0 q0) src = Done k ->
  (nid <> 1160 /\ nid <> 1168)%Z \/ (forall P, ek_pub k = Some P -> has_compressed_form (g_curve g) P) ->
  exists p8 pub kd kv, priv_encode (PKEY t (Some (DKEY k sb))) = Ok p8 /\ pub_encode (PKEY t (Some (DKEY k sb))) = Ok pub /\
    priv_decode d2i solve p8 = Some kd /\ pub_decode d2i d2o solve pub = Some kv /\
    forall h h' c c' v v' x x' fuel ds ds' siglen src len w, Forall bytes ds -> Forall bytes ds' -> digest (packed_sbox (effective sb)) (concat ds') = digest (packed_sbox (effective sb)) (concat ds) -> hashable (length (concat ds)) -> hashable (length (concat ds')) -> ranged (g_order g) src ->
      digest_sign h h' c c' fuel kd ds siglen src = Some (Done (true, len, w)) ->
      digest_verify v v' x x' d2o kv ds' w = Some true /\ digest_verify v v' x x' d2o kd ds' w = Some true /\ digest_verify v v' x x' d2o (PKEY t (Some (DKEY k sb))) ds' w = Some true.
Proof.
  intros R RO E GS KT SB RG GK NC. destruct (nid_facts nid g E) as (W & AG & CO & NB & NI & P).
  destruct (generate_pair fuel g d0 q0 src k W RG GK) as (d & Q & -> & L & K).
  destruct (pair_finite nid g d Q E ltac:(lia) K) as (x & y & ->).
  assert (F : has_compressed_form (g_curve g) (Some (x, y))) by (destruct NC as [[N1 N2]|NC]; [exact (pair_form nid g d x y E N1 N2 ltac:(lia) K)|apply NC; reflexivity]). pose proof (pair_multiple nid g d _ E ltac:(lia) K) as M. symmetry in M.
  destruct (priv_total t g d (Some (x, y)) sb KT W AG (or_introl NI) ltac:(lia)) as [p8 E8].
  destruct (pub_encodes t g (Some d) _ x y sb KT W AG (or_introl NI) M) as [_ PE]. destruct (PE F) as [pub Ep].
  destruct (multiples_compressible g _ x y W M) as [OC COM].
  destruct (priv_round d2i solve t g d (Some (x, y)) sb p8 R W AG GS SB K E8) as [g1 [G1 D1]]. rewrite (one_same g g1 CO G1) in D1.
  destruct (pub_round d2i d2o solve t g (Some d) x y sb pub R RO W AG GS SB OC (or_introl COM) Ep) as [g2 [G2 D2]]. rewrite (one_same g g2 CO G2) in D2.
  exists p8, pub, (key_of t g (Some d) (Some (x, y)) (stored sb)), (key_of t g None (Some (x, y)) (stored sb)).
  split; [exact E8|]. split; [exact Ep|]. split; [exact D1|]. split; [exact D2|].
  intros h h' c c' v v' z z' fuel' ds ds' siglen src' len w Hd Hd' Hc Hh Hh' RG' SG. unfold key_of in *.
  rewrite digest_sign_ok in SG by (try apply stored_ok; assumption). injection SG as SG.
  rewrite !digest_verify_ok by (try apply stored_ok; assumption). rewrite stored_effective in *. rewrite Hc.
  destruct (round_trip d2o fuel' t g d (Some (x, y)) (stored sb) siglen _ src' len w RO W K RG' NB SG) as (_ & _ & _ & V). unfold key_of in V.
  split; [f_equal; apply V|]. split; f_equal; apply V.
Qed.
Lemma message_lifetime d2i d2o solve nid g t sb fuel d0 q0 src k : reads_params d2i -> reads_octets d2o -> group_from_nid nid = Some g -> good_solver (c_p (g_curve g)) solve ->
  key_type t -> sbox_ok sb -> ranged (g_order g) src -> generate_key fuel (ECKEY (Some (Binary g)) d0 q0) src = Done k ->
  (nid <> 1160 /\ nid <> 1168)%Z \/ (forall P, ek_pub k = Some P -> has_compressed_form (g_curve g) P) ->
  exists p8 pub kd kv, priv_encode (PKEY t (Some (DKEY k sb))) = Ok p8 /\ pub_encode (PKEY t (Some (DKEY k sb))) = Ok pub /\
    priv_decode d2i solve p8 = Some kd /\ pub_decode d2i d2o solve pub = Some kv /\
    forall h h' c c' v v' x x' fuel ds ds' siglen src len w, Forall bytes ds -> Forall bytes ds' -> concat ds' = concat ds -> hashable (length (concat ds)) -> ranged (g_order g) src ->
      digest_sign h h' c c' fuel kd ds siglen src = Some (Done (true, len, w)) ->
      digest_verify v v' x x' d2o kv ds' w = Some true /\ digest_verify v v' x x' d2o kd ds' w = Some true /\ digest_verify v v' x x' d2o (PKEY t (Some (DKEY k sb))) ds' w = Some true.
Proof.
  intros R RO E GS KT SB RG GK NC. destruct (message_lifetime_gen d2i d2o solve nid g t sb fuel d0 q0 src k R RO E GS KT SB RG GK NC) as (p8 & pub & kd & kv & E1 & E2 & E3 & E4 & V).
  exists p8, pub, kd, kv. split; [exact E1|]. split; [exact E2|]. split; [exact E3|]. split; [exact E4|].
  intros h h' c c' v v' x x' fuel' ds ds' siglen src' len w Hd Hd' Hc Hh RG' SG. apply (V h h' c c' v v' x x' fuel' ds ds' siglen src' len w); try assumption; rewrite Hc; [reflexivity|assumption].
Qed.
