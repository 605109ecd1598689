(** Keys in basic encodings. *)
From Coq Require Import ZArith List Lia.
Import ListNotations.
From Verif Require Import Base Model_Params Model_Gf2m Model_Compress Model_Ec Model_Curves Model_Sign Model_Asn1 Model_Pmeth Model_Utils Model_Key Model_Ameth
  Spec_Gf2m Spec_Compress Spec_Curves Spec_Asn1 Spec_Ber Spec_Keylib Spec_Sign Spec_Pmeth Spec_Key Spec_Wire Proof_Asn1 Proof_Ber Proof_Wire.
Open Scope N_scope.

Lemma decode_same solve t p ber : params_ok p -> ber_params true p ber -> N.of_nat (length ber) < 2 ^ 31 -> param_decode d2i_params solve t ber = param_decode d2i_params solve t (enc_params p).
Proof.
  intros PO B L. unfold param_decode. rewrite <- (app_nil_r ber), (d2i_params_complete p ber [] B L). rewrite <- (app_nil_r (enc_params p)), (reads_enc_params d2i_params p [] d2i_params_reads PO). reflexivity.
Qed.
Lemma params_ber solve t p g sb ber : well_formed g -> api_group g -> good_solver (c_p (g_curve g)) solve -> sbox_ok sb -> params_ok p ->
  (g_cofactor g = 1 \/ exists i, standard_group i = Some g) -> ber_params true p ber -> N.of_nat (length ber) < 2 ^ 31 -> params_say t p g sb ->
  exists sb', effective sb' = effective sb /\ param_decode d2i_params solve t ber = Some (DKEY (ECKEY (Some (Binary g)) None None) sb').
Proof.
  intros W AG S SB PO C B L P. rewrite (decode_same solve t p ber PO B L). apply (params_read d2i_params solve t p g sb); try assumption; [apply d2i_params_reads|apply enc_params_der].
Qed.
Lemma priv_ber solve t p g d Q sb ber s : key_type t -> well_formed g -> api_group g -> good_solver (c_p (g_curve g)) solve -> sbox_ok sb -> params_ok p ->
  (g_cofactor g = 1 \/ exists i, standard_group i = Some g) -> ber_params true p ber -> N.of_nat (length ber) < 2 ^ 31 -> params_say t p g sb -> s <> [] -> be_val (rev s) = d -> key_pair g d Q ->
  exists sb', effective sb' = effective sb /\ priv_decode d2i_params solve (KEYINFO (ALGOR t (Some ber)) s) = Some (key_of t g (Some d) Q sb').
Proof.
  intros T W AG S SB PO C B L P N0 V K. destruct (priv_read d2i_params solve t p g d Q sb (enc_params p) s d2i_params_reads T W AG S SB PO C (enc_params_der p) P N0 V K) as (sb' & E & X).
  exists sb'. split; [exact E|]. rewrite <- X. unfold priv_decode. cbn [ki_alg al_nid al_params ki_key]. rewrite (decode_same solve t p ber PO B L). reflexivity.
Qed.
Lemma pub_ber solve t p g x y sb ber s w : key_type t -> well_formed g -> api_group g -> good_solver (c_p (g_curve g)) solve -> sbox_ok sb -> params_ok p ->
  (g_cofactor g = 1 \/ exists i, standard_group i = Some g) -> ber_params true p ber -> N.of_nat (length ber) < 2 ^ 31 -> params_say t p g sb ->
  ber_octets true s w -> N.of_nat (length w) < 2 ^ 31 -> point_string t (g_curve g) s (Some (x, y)) ->
  exists sb', effective sb' = effective sb /\ pub_decode d2i_params d2i_octets solve (KEYINFO (ALGOR t (Some ber)) w) = Some (key_of t g None (Some (x, y)) sb').
Proof.
  intros T W AG S SB PO C B L P O LW PS.
  destruct (pub_read d2i_params d2i_octets solve t p g x y sb (enc_params p) s (enc_octets s) d2i_params_reads d2i_octets_reads T W AG S SB PO C (enc_params_der p) P (enc_octets_der s) PS) as (sb' & E & X).
  exists sb'. split; [exact E|]. rewrite <- X. unfold pub_decode. cbn [ki_alg al_nid al_params ki_key]. rewrite (decode_same solve t p ber PO B L).
  assert (LS : N.of_nat (length s) < 2 ^ 31).
  { destruct PS as [[_ Ls] _]. unfold field_size in Ls. destruct AG as [_ [_ [_ Dg]]]. eapply N.le_lt_trans with (m := field_size (g_curve g)); [unfold field_size; lia|]. unfold field_size. apply N.div_lt_upper_bound; lia. }
  rewrite <- (app_nil_r w), (d2i_octets_complete s w [] O LW). rewrite <- (app_nil_r (enc_octets s)), (reads_enc_octets d2i_octets s [] d2i_octets_reads LS). reflexivity.
Qed.
