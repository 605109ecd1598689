From Coq Require Import Lia ZArith.
From Verif Require Import Base Lib Model_Gf2m Model_Compress Model_Ec Model_Curves Model_Sign Model_Asn1 Model_Pmeth Model_Utils Model_Key Model_Ameth Spec_Asn1 Spec_Mirror Proof_Asn1 Proof_Key.

Lemma rev_nonempty (s : list N) : s <> [] -> rev s <> [].
Proof. intros H E. apply H. rewrite <- (rev_involutive s), E. reflexivity. Qed.

Lemma mirror_sign fuel k sig siglen tbs src :
  match pkey_sign fuel (Some (PKEY 1159 k)) sig siglen tbs src, pkey_sign fuel (Some (PKEY 1158 k)) sig siglen tbs src with
  | Done (r, n, w), Done (r', n', w') => r' = r /\ n' = n /\ (w = [] /\ w' = [] \/ exists c, der_octets c w /\ der_octets (rev c) w')
  | Running, Running => True
  | _, _ => False
  end.
Proof.
  unfold pkey_sign, pkey_size, pkey_group. cbn [pk_key pk_type].
  destruct k as [k|]; [|auto]. destruct (ek_group (dk_ec k)) as [g|]; [|auto]. destruct (get_order g) as [n|]; [|auto].
  destruct (sig && (siglen <? object_size (num_bytes n * 2))); [auto|]. destruct sig; [|auto].
  destruct (do_sign fuel (dk_ec k) tbs src) as [| |c]; auto.
  change (1159 =? NID_dstu4145le)%Z with false. change (1158 =? NID_dstu4145le)%Z with true. cbv iota.
  assert (L : length (enc_octets (rev c)) = length (enc_octets c)). { unfold enc_octets, tlv. cbn [length]. rewrite !app_length, rev_length. reflexivity. }
  rewrite L. split; [reflexivity|]. split; [reflexivity|]. right. exists c. split; apply enc_octets_der.
Qed.

Lemma mirror_verify d2i k c w w' tbs : reads_octets d2i -> N.of_nat (length c) < 2 ^ 31 -> der_octets c w -> der_octets (rev c) w' ->
  pkey_verify d2i (Some (PKEY 1158 k)) w' tbs = pkey_verify d2i (Some (PKEY 1159 k)) w tbs.
Proof.
  intros R L D D'. assert (E : d2i w = Some c). { rewrite <- (app_nil_r w). exact (R c w [] L D). }
  assert (E' : d2i w' = Some (rev c)). { rewrite <- (app_nil_r w'). apply R; [rewrite rev_length; exact L|exact D']. }
  unfold pkey_verify, pkey_group. cbn [pk_key pk_type]. rewrite E, E', rev_length, rev_involutive. reflexivity.
Qed.

Lemma mirror_params_of k : match asn1_from_key k false, asn1_from_key k true with
  | Ok p, Ok p' => reversed_params p p' | Error, Error => True | Undefined, Undefined => True | _, _ => False end.
Proof.
  unfold asn1_from_key. destruct (ek_group (dk_ec k)) as [[g|]|]; auto.
  destruct (curve_nid_from_group g =? 0)%Z.
  - unfold custom_from_group. destruct (g_order g =? 0); [exact Logic.I|]. destruct (c_p (g_curve g) =? 0); [exact Logic.I|].
    generalize (poly2arr (c_p (g_curve g)) 6). intros arr. cbv zeta. destruct (elt arr 0) as [| |m]; [exact Logic.I|exact Logic.I|]. cbn [bind]. destruct (middle_of arr) as [| |mid]; [exact Logic.I|exact Logic.I|]. cbn [bind].
    destruct (bn_encode (c_b (g_curve g)) (Z.to_N ((m + 7) / 8))) as [[b r]|]; cbn [bind]; [|auto]. destruct (r =? 0); cbn [bind]; [auto|].
    destruct (compress (g_curve g) (g_gen g) (Z.to_N ((m + 7) / 8))) as [bp|]; cbn [bind]; [|auto].
    split; reflexivity.
  - destruct (curve_nid2obj (curve_nid_from_group g)); [|auto]. split; reflexivity.
Qed.
Lemma mirror_param_encode k : match param_encode (PKEY 1159 k), param_encode (PKEY 1158 k) with
  | Ok w, Ok w' => exists p p', der_params p w /\ der_params p' w' /\ reversed_params p p' | Error, Error => True | Undefined, Undefined => True | _, _ => False end.
Proof.
  unfold param_encode. cbn [pk_key pk_type]. destruct k as [k|]; [|auto]. change (is_le 1159) with false. change (is_le 1158) with true.
  pose proof (mirror_params_of k) as H. destruct (asn1_from_key k false) as [| |p], (asn1_from_key k true) as [| |p']; cbn [bind]; try contradiction; auto.
  exists p, p'. split; [apply enc_params_der|]. split; [apply enc_params_der|exact H].
Qed.

Lemma mirror_priv_written k : match priv_encode (PKEY 1159 k), priv_encode (PKEY 1158 k) with
  | Ok i, Ok i' => ki_key i' = ki_key i /\ exists p, reversed_algorithm p (ki_alg i) (ki_alg i')
  | Error, Error => True | Undefined, Undefined => True | _, _ => False end.
Proof.
  unfold priv_encode. cbn [pk_type pk_key]. change (negb (is_dstu 1159)) with false. change (negb (is_dstu 1158)) with false. cbv iota.
  pose proof (mirror_param_encode k) as H. destruct (param_encode (PKEY 1159 k)) as [| |w], (param_encode (PKEY 1158 k)) as [| |w']; cbn [bind]; try contradiction; auto.
  destruct H as (p & p' & D & D' & X). destruct k as [k|]; [|auto]. destruct (ek_priv (dk_ec k)) as [d|]; [|auto]. destruct (d =? 0); [auto|].
  split; [reflexivity|]. exists p. split; [reflexivity|]. split; [reflexivity|]. exists p', w, w'. cbn [ki_alg al_params]. auto.
Qed.
Lemma mirror_pub_written k : match pub_encode (PKEY 1159 k), pub_encode (PKEY 1158 k) with
  | Ok i, Ok i' => (exists s, der_octets s (ki_key i) /\ der_octets (rev s) (ki_key i')) /\ exists p, reversed_algorithm p (ki_alg i) (ki_alg i')
  | Error, Error => True | Undefined, Undefined => True | _, _ => False end.
Proof.
  unfold pub_encode. cbn [pk_type pk_key]. change (negb (is_dstu 1159)) with false. change (negb (is_dstu 1158)) with false. cbv iota.
  pose proof (mirror_param_encode k) as H. destruct (param_encode (PKEY 1159 k)) as [| |w], (param_encode (PKEY 1158 k)) as [| |w']; cbn [bind]; try contradiction; auto.
  destruct H as (p & p' & D & D' & X). destruct k as [k|]; [|auto]. destruct (ek_group (dk_ec k)) as [[g|]|]; auto. destruct (ek_pub (dk_ec k)) as [Q|]; auto.
  destruct (field_size (g_curve g) =? 0); [auto|]. destruct (compress (g_curve g) Q (field_size (g_curve g))) as [s|]; [|auto].
  change (is_le 1159) with false. change (is_le 1158) with true. split; [exists s; split; apply enc_octets_der|].
  exists p. split; [reflexivity|]. split; [reflexivity|]. exists p', w, w'. cbn [ki_alg al_params]. auto.
Qed.

Lemma rev_string_ok s : string_ok s -> string_ok (rev s).
Proof. intros [B L]. split; [|rewrite rev_length; exact L]. unfold bytes in *. apply Forall_rev. exact B. Qed.
Lemma reversed_ok p p' : params_ok p -> reversed_params p p' -> params_ok p'.
Proof.
  intros (A & B) (C & D). split; [|rewrite D; exact B]. destruct (ap_curve p) as [o|s], (ap_curve p') as [o'|s']; cbn [reversed_curve] in C; try contradiction; [rewrite C; exact A|]. rewrite C.
  destruct A as (A1 & A2 & A3 & A4 & A5 & A6). exact (conj A1 (conj A2 (conj A3 (conj (rev_string_ok _ A4) (conj A5 (rev_string_ok _ A6)))))).
Qed.
Lemma mirror_key_from solve p p' : no_empty_string p -> reversed_params p p' -> key_from_asn1 solve p' true = key_from_asn1 solve p false.
Proof.
  intros E (C & D). unfold key_from_asn1. rewrite D. destruct (match ap_sbox p with Some s => _ | None => Some None end) as [sb|]; [|reflexivity].
  unfold no_empty_string in E. destruct (ap_curve p) as [o|s], (ap_curve p') as [o'|s']; cbn in C; try contradiction; subst; [reflexivity|].
  unfold group_from_asn1. cbn [cu_field cu_a cu_b cu_n cu_bp]. destruct E as [E1 E2].
  assert (T : forall x, x <> [] -> in_order true (rev x) = in_order false x).
  { intros x N. unfold in_order. destruct (rev x) eqn:F; [exfalso; exact (rev_nonempty x N F)|]. rewrite <- F, rev_involutive. reflexivity. }
  rewrite !T by assumption. reflexivity.
Qed.
Lemma mirror_param_decode d2i solve p p' w w' : reads_params d2i -> params_ok p -> no_empty_string p -> der_params p w -> der_params p' w' -> reversed_params p p' ->
  param_decode d2i solve 1158 w' = param_decode d2i solve 1159 w.
Proof.
  intros R O E D D' X. unfold param_decode. rewrite <- (app_nil_r w), <- (app_nil_r w'). rewrite (R p w [] O D), (R p' w' [] (reversed_ok p p' O X) D').
  apply mirror_key_from; assumption.
Qed.
Lemma mirror_priv_read d2i solve p a a' key : reads_params d2i -> params_ok p -> no_empty_string p -> reversed_algorithm p a a' ->
  same_key (priv_decode d2i solve (KEYINFO a key)) (priv_decode d2i solve (KEYINFO a' key)).
Proof.
  intros R O E (T & T' & p' & w & w' & A & A' & D & D' & X). unfold priv_decode. cbn [ki_alg ki_key]. rewrite T, T', A, A'.
  change (negb (is_dstu 1159)) with false. change (negb (is_dstu 1158)) with false. cbv iota. rewrite (mirror_param_decode d2i solve p p' w w') by assumption.
  destruct (param_decode d2i solve 1159 w) as [k|]; [|exact Logic.I]. destruct key as [|b key]; [exact Logic.I|].
  destruct (add_public_key _) as [ec|]; cbn; auto.
Qed.
Lemma mirror_pub_read d2i d2o solve p a a' s w w' : reads_params d2i -> reads_octets d2o -> params_ok p -> no_empty_string p -> reversed_algorithm p a a' ->
  s <> [] -> N.of_nat (length s) < 2 ^ 31 -> der_octets s w -> der_octets (rev s) w' ->
  same_key (pub_decode d2i d2o solve (KEYINFO a w)) (pub_decode d2i d2o solve (KEYINFO a' w')).
Proof.
  intros R RO O E (T & T' & p' & v & v' & A & A' & D & D' & X) NE L W W'. unfold pub_decode. cbn [ki_alg ki_key]. rewrite T, T', A, A'.
  change (negb (is_dstu 1159)) with false. change (negb (is_dstu 1158)) with false. cbv iota. rewrite (mirror_param_decode d2i solve p p' v v') by assumption.
  destruct (param_decode d2i solve 1159 v) as [k|]; [|exact Logic.I]. destruct (ek_group (dk_ec k)) as [[g|]|]; try exact Logic.I.
  assert (F : d2o w = Some s). { rewrite <- (app_nil_r w). exact (RO s w [] L W). }
  assert (F' : d2o w' = Some (rev s)). { rewrite <- (app_nil_r w'). apply RO; [rewrite rev_length; exact L|exact W']. }
  rewrite F, F'. change (is_le 1159) with false. change (is_le 1158) with true. unfold in_order.
  destruct (rev s) eqn:G; [exfalso; exact (rev_nonempty s NE G)|]. rewrite <- G, rev_involutive.
  destruct (expand solve s (g_curve g)); cbn; auto.
Qed.

Lemma wide_ok : params_ok (wide false).
Proof.
  assert (J : forall x, (0 <= x < 2 ^ 5)%Z -> integer_ok x). { intros x. apply int_ok_small. lia. }
  assert (B : forall s, forallb (fun x => x <? 256) s = true -> N.of_nat (length s) < 2 ^ 31 -> string_ok s).
  { intros s H L. split; [|exact L]. apply Forall_forall. intros x X. rewrite forallb_forall in H. apply N.ltb_lt, H, X. }
  split; [|exact Logic.I]. split; [apply J; split; [discriminate|reflexivity]|]. split; [apply J; split; [discriminate|reflexivity]|]. split; [apply J; split; [discriminate|reflexivity]|]. split; [apply B; reflexivity|]. split; [apply J; split; [discriminate|reflexivity]|apply B; reflexivity].
Qed.

Lemma empty_le d2i solve c sb w key : reads_params d2i -> params_ok (PARAMS (Custom c) sb) -> cu_b c = [] -> der_params (PARAMS (Custom c) sb) w ->
  priv_decode d2i solve (KEYINFO (ALGOR 1158 (Some w)) key) = None.
Proof.
  intros R O E D. unfold priv_decode. cbn [ki_alg al_nid al_params]. change (negb (is_dstu 1158)) with false. cbv iota. unfold param_decode. change (is_le 1158) with true.
  rewrite <- (app_nil_r w), (R _ w [] O D). unfold key_from_asn1. cbn [ap_sbox ap_curve]. destruct (match sb with Some s => _ | None => Some None end) as [x|]; [|reflexivity].
  unfold group_from_asn1. destruct (poly_of_spec (cu_field c)) as [q|]; [|reflexivity]. destruct (negb (cu_a c =? 1)%Z && negb (cu_a c =? 0)%Z); [reflexivity|].
  rewrite E. reflexivity.
Qed.
Definition hollow : params := PARAMS (Custom (CUSTOM (BF 5 (Trinomial 2)) 1 [] 17 [2])) None.
Lemma hollow_ok : params_ok hollow.
Proof.
  assert (J : forall x, (0 <= x < 2 ^ 5)%Z -> integer_ok x). { intros x. apply int_ok_small. lia. }
  assert (B : forall s, forallb (fun x => x <? 256) s = true -> N.of_nat (length s) < 2 ^ 31 -> string_ok s).
  { intros s H L. split; [|exact L]. apply Forall_forall. intros x X. rewrite forallb_forall in H. apply N.ltb_lt, H, X. }
  split; [|exact Logic.I]. split; [apply J; split; [discriminate|reflexivity]|]. split; [apply J; split; [discriminate|reflexivity]|]. split; [apply J; split; [discriminate|reflexivity]|].
  split; [apply B; reflexivity|]. split; [apply J; split; [discriminate|reflexivity]|apply B; reflexivity].
Qed.
Lemma mirror_empty d2i : reads_params d2i ->
  (forall solve c sb w key, params_ok (PARAMS (Custom c) sb) -> cu_b c = [] -> der_params (PARAMS (Custom c) sb) w -> priv_decode d2i solve (KEYINFO (ALGOR 1158 (Some w)) key) = None) /\
  exists c w k g, cu_b c = [] /\ der_params (PARAMS (Custom c) None) w /\ priv_decode d2i solve_quad (KEYINFO (ALGOR 1159 (Some w)) [5]) = Some k /\
    pkey_group k = Some (Binary g) /\ c_b (g_curve g) = 0.
Proof.
  intros R. split; [intros; eapply empty_le; eassumption|].
  assert (D : d2i (enc_params hollow) = Some hollow). { rewrite <- (app_nil_r (enc_params hollow)). apply R; [exact hollow_ok|apply enc_params_der]. }
  assert (G : exists k g, match key_from_asn1 solve_quad hollow false with Some key => match add_public_key (ECKEY (ek_group (dk_ec key)) (Some 5) (ek_pub (dk_ec key))) with
     None => None | Some ec => Some (PKEY 1159 (Some (DKEY ec (dk_sbox key)))) end | None => None end = Some k /\ pkey_group k = Some (Binary g) /\ c_b (g_curve g) = 0).
  { eexists. eexists. vm_compute. repeat split. }
  destruct G as (k & g & E & A & B). exists (CUSTOM (BF 5 (Trinomial 2)) 1 [] 17 [2]), (enc_params hollow), k, g. split; [reflexivity|]. split; [apply enc_params_der|]. split; [|split; assumption].
  unfold priv_decode. cbn [ki_alg al_nid al_params ki_key]. change (negb (is_dstu 1159)) with false. cbv iota. unfold param_decode. rewrite D. exact E.
Qed.
