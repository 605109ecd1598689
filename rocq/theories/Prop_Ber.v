(** Property C132: what the decoder of key parameters and octet strings reads (dstulib/asn1.c). *)
From Coq Require Import ZArith List Lia.
Import ListNotations.
From Verif Require Import Base Model_Params Model_Gf2m Model_Compress Model_Ec Model_Curves Model_Sign Model_Asn1 Model_Pmeth Model_Utils Model_Key Model_Ameth
  Spec_Gf2m Spec_Compress Spec_Curves Spec_Asn1 Spec_Ber Spec_Keylib Spec_Sign Spec_Pmeth Spec_Key Spec_Toy Spec_Wire Proof_Asn1 Proof_Toy Proof_Ber Proof_BerKeys Prop_Key.
Open Scope N_scope.

(** C132: every basic encoding of parameters or of an octet string is read as what it encodes,
    whatever follows it. *)
Theorem C132_reads_params : forall p w t, ber_params true p w -> N.of_nat (length w) < 2 ^ 31 -> d2i_params (w ++ t) = Some p.
Proof. exact d2i_params_complete. Qed.
Print Assumptions C132_reads_params.
Theorem C132_reads_octets : forall s w t, ber_octets true s w -> N.of_nat (length w) < 2 ^ 31 -> d2i_octets (w ++ t) = Some s.
Proof. exact d2i_octets_complete. Qed.
Print Assumptions C132_reads_octets.
(** What is read is what was encoded: the input begins with an encoding, with the liberties of
    Spec_Ber, of the result. *)
Theorem C132_only_params : forall l p, bytes l -> d2i_params l = Some p -> exists w t, l = w ++ t /\ ber_params false p w.
Proof. exact d2i_params_sound. Qed.
Print Assumptions C132_only_params.
Theorem C132_only_octets : forall l s, bytes l -> d2i_octets l = Some s -> exists w t, l = w ++ t /\ ber_octets false s w.
Proof. exact d2i_octets_sound. Qed.
Print Assumptions C132_only_octets.
(** It is a decoder as C47-C50, C90, C91, C93 and others ask for. *)
Theorem C132_distinguished : reads_params d2i_params /\ reads_octets d2i_octets.
Proof. exact (conj d2i_params_reads d2i_octets_reads). Qed.
Print Assumptions C132_distinguished.
(** Keys written by others in basic encodings are read as the keys they say. *)
Theorem C132_key_params : forall solve t p g sb ber, well_formed g -> api_group g -> good_solver (c_p (g_curve g)) solve -> sbox_ok sb -> params_ok p ->
  (g_cofactor g = 1 \/ exists i, standard_group i = Some g) -> ber_params true p ber -> N.of_nat (length ber) < 2 ^ 31 -> params_say t p g sb ->
  exists sb', effective sb' = effective sb /\ param_decode d2i_params solve t ber = Some (DKEY (ECKEY (Some (Binary g)) None None) sb').
Proof. exact params_ber. Qed.
Print Assumptions C132_key_params.
Theorem C132_key_priv : forall solve t p g d Q sb ber s, key_type t -> well_formed g -> api_group g -> good_solver (c_p (g_curve g)) solve -> sbox_ok sb -> params_ok p ->
  (g_cofactor g = 1 \/ exists i, standard_group i = Some g) -> ber_params true p ber -> N.of_nat (length ber) < 2 ^ 31 -> params_say t p g sb -> s <> [] -> be_val (rev s) = d -> key_pair g d Q ->
  exists sb', effective sb' = effective sb /\ priv_decode d2i_params solve (KEYINFO (ALGOR t (Some ber)) s) = Some (key_of t g (Some d) Q sb').
Proof. exact priv_ber. Qed.
Print Assumptions C132_key_priv.
Theorem C132_key_pub : forall solve t p g x y sb ber s w, key_type t -> well_formed g -> api_group g -> good_solver (c_p (g_curve g)) solve -> sbox_ok sb -> params_ok p ->
  (g_cofactor g = 1 \/ exists i, standard_group i = Some g) -> ber_params true p ber -> N.of_nat (length ber) < 2 ^ 31 -> params_say t p g sb ->
  ber_octets true s w -> N.of_nat (length w) < 2 ^ 31 -> point_string t (g_curve g) s (Some (x, y)) ->
  exists sb', effective sb' = effective sb /\ pub_decode d2i_params d2i_octets solve (KEYINFO (ALGOR t (Some ber)) w) = Some (key_of t g None (Some (x, y)) sb').
Proof. exact pub_ber. Qed.
Print Assumptions C132_key_pub.
(** What is not a basic encoding is not always refused: a string may be made of parts that are
    no octet strings (refuted). *)
Theorem C132_foreign_parts_refuted : forall b c, b < 256 -> b mod 32 <> 31 -> N.testbit b 5 = false -> b <> 0 -> b <> 4 -> (length c < 126)%nat ->
  let w := [0x24; N.of_nat (length c + 2); b; N.of_nat (length c)] ++ c in
  d2i_octets w = Some c /\ ~ exists w1 t v, w = w1 ++ t /\ ber_octets true v w1.
Proof. intros b c H1 H2 H3 H4 H5 H6. split; [exact (foreign_part b c H1 H2 H3 H4 H6)|exact (foreign_not_ber b c H3 H5 H6)]. Qed.
Print Assumptions C132_foreign_parts_refuted.
(** And a basic encoding is not always read: the empty string with a long length (refuted). *)
Theorem C132_empty_refuted : forall k, (0 < k < 127)%nat ->
  d2i_octets (4 :: N.of_nat (128 + k) :: repeat 0 k) = None /\ definite false 0 (N.of_nat (128 + k) :: repeat 0 k).
Proof.
  intros k K. split; [apply empty_long|]. right. exists (repeat 0 k). rewrite repeat_length. split; [f_equal; lia|]. split; [destruct k; [lia|discriminate]|]. split; [lia|].
  split; [|split; [|discriminate]]; clear K; induction k; cbn [repeat]; [constructor|constructor; [reflexivity|exact IHk]|reflexivity|].
  change (0 :: repeat 0 k) with ([0] ++ repeat 0 k). rewrite Lib.be_val_app, IHk. reflexivity.
Qed.
Print Assumptions C132_empty_refuted.

(** The parameters of the small curve with indefinite lengths, a long length, and the
    coefficient and the point in parts. *)
Definition ber_toy : list N :=
  [0x30; 0x80; 0x30; 0x80; 0x30; 0x81; 6; 2; 1; 5; 2; 1; 2; 2; 1; 1; 0x24; 0x80; 0x24; 3; 4; 1; 1; 4; 0; 0; 0; 2; 1; 7; 4; 1; 6; 0; 0; 0; 0].
Example C132_ex : exists p, d2i_params (ber_toy ++ [9; 9; 9]) = Some p /\ ap_sbox p = None /\
  match ap_curve p with Custom c => cu_b c = [1] /\ bf_m (cu_field c) = 5%Z /\ cu_n c = 7%Z /\ cu_bp c = [6] | Named _ => False end.
Proof. eexists. vm_compute. repeat split; reflexivity. Qed.
Example C132_ex_octets : ber_octets true [1; 2; 3] [0x24; 0x80; 4; 1; 1; 0x24; 0x82; 0; 4; 4; 2; 2; 3; 0; 0].
Proof.
  assert (I4 : forall cst, identifier true (Some 4) cst [if cst then 0x24 else 4]).
  { intros cst. exists (if cst then 0x24 else 4), [], 4. destruct cst; (split; [reflexivity|]; split; [reflexivity|]; split; [reflexivity|]; split; [left; split; [discriminate|split; reflexivity]|split; reflexivity]). }
  assert (P : forall d c, (length c < 128)%nat -> ber_string true d (Some 4) c ([4] ++ [N.of_nat (length c)] ++ c)).
  { intros d c L. apply ber_prim; [apply (I4 false)|]. left. split; [exact L|reflexivity]. }
  apply (ber_cons true 5 (Some 4) [4; 1; 1; 0x24; 0x82; 0; 4; 4; 2; 2; 3]).
  - change [1; 2; 3] with ([1] ++ [2; 3] ++ []). change [4; 1; 1; 0x24; 0x82; 0; 4; 4; 2; 2; 3] with ([4; 1; 1] ++ [0x24; 0x82; 0; 4; 4; 2; 2; 3] ++ []).
    apply parts_cons; [apply (P 5%nat [1]); cbn; lia|discriminate|]. apply parts_cons; [|discriminate|constructor].
    apply (ber_cons true 4 (Some 4) [4; 2; 2; 3]).
    + apply (parts_cons true 4 [2; 3] [4; 2; 2; 3] [] []); [apply (P 4%nat [2; 3]); cbn; lia|discriminate|constructor].
    + exists [0x24]. split; [apply (I4 true)|]. left. exists [0x82; 0; 4]. split; [|reflexivity]. right. exists [0; 4]. split; [reflexivity|]. split; [discriminate|]. split; [cbn; lia|].
      split; [repeat constructor|]. split; [reflexivity|discriminate].
  - exists [0x24]. split; [apply (I4 true)|]. right. reflexivity.
Qed.
Example C132_ex_read : d2i_octets [0x24; 0x80; 4; 1; 1; 0x24; 0x82; 0; 4; 4; 2; 2; 3; 0; 0; 77] = Some [1; 2; 3] /\ d2i_octets [0x24; 3; 2; 1; 7] = Some [7] /\ d2i_octets [4; 0x81; 0] = None /\ d2i_octets [4; 0x81; 0; 77] = Some [] /\
  d2i_octets [0x24; 0x80; 4; 1; 1] = None /\ d2i_octets [4; 0x80; 0; 0] = None.
Proof. vm_compute. repeat split; reflexivity. Qed.
(** A standard curve named in an encoding of indefinite length with a length of two octets. *)
Example C132_ex_named : let p := PARAMS (Named (standard_oid 0)) None in let w := [0x30; 0x80; 6; 0x81; 13] ++ standard_oid 0 ++ [0; 0] in
  ber_params true p w /\ params_ok p /\ (exists g, standard_group 0 = Some g /\ forall t, params_say t p g None) /\ d2i_params w = Some p.
Proof.
  cbv zeta. split; [|split; [|split; [|vm_compute; reflexivity]]].
  - exists ([6; 0x81; 13] ++ standard_oid 0), []. split; [|split; [reflexivity|]].
    + split; [apply oid_ok_spec; vm_compute; reflexivity|]. exists [6], [0x81; 13]. split; [|split; [|reflexivity]].
      * exists 6, [], 6. split; [reflexivity|]. split; [reflexivity|]. split; [reflexivity|]. split; [left; split; [discriminate|split; reflexivity]|split; reflexivity].
      * right. exists [13]. split; [reflexivity|]. split; [discriminate|]. split; [cbn; lia|]. split; [repeat constructor|]. split; [reflexivity|discriminate].
    + exists [0x30]. split; [|right; reflexivity]. exists 0x30, [], 16. split; [reflexivity|]. split; [reflexivity|]. split; [reflexivity|]. split; [left; split; [discriminate|split; reflexivity]|split; reflexivity].
  - split; [|exact I]. split; [vm_compute; reflexivity|]. split; [repeat constructor|reflexivity].
  - destruct (standard_group 0) as [g|] eqn:E; [|vm_compute in E; discriminate]. exists g. split; [reflexivity|]. intros t. split; [|reflexivity]. cbn [ap_curve]. exists 0. split; [reflexivity|]. split; [reflexivity|exact E].
Qed.
