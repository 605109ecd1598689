(** Properties of encoded keys (dstulib/key.c, engine/ameth.c). *)
From Coq Require Import Lia ZArith.
From Verif Require Import Base Lib Model_Params Model_Gf2m Model_Compress Model_Ec Model_Utils Model_Curves Model_Sign Model_Asn1 Model_Pmeth Model_Key Model_Ameth
  Spec_Gf2m Spec_Compress Spec_Curves Spec_Asn1 Spec_Sign Spec_Pmeth Spec_Key Spec_Toy
  Proof_Asn1 Proof_Compress2 Proof_Toy Proof_Key Proof_Key2 Proof_Key3.

(** The small curve meets the hypotheses used below; its encoded parameters. *)
Example toy_key_ex : well_formed toy_group /\ api_group toy_group /\ good_solver (c_p (g_curve toy_group)) solve_quad /\ g_cofactor toy_group = 1 /\
  has_compressed_form (g_curve toy_group) (g_gen toy_group) /\ reads_params d2i_params /\ reads_octets d2i_octets /\ sbox_ok None /\ sbox_ok (Some default_sbox) /\ key_pair toy_group 5 (Some (21, 17)).
Proof.
  split; [exact toy_good|]. split; [vm_compute; repeat split; try discriminate; left; reflexivity|]. split; [apply half_trace_solver; [exact toy_irr|reflexivity]|]. split; [reflexivity|].
  split; [left; discriminate|]. split; [exact d2i_params_reads|]. split; [exact d2i_octets_reads|]. split; [exact I|]. split; [|vm_compute; reflexivity].
  split; [|reflexivity]. apply Forall_forall. intros x Hx. assert (B : forallb (fun x => x <? 256) default_sbox = true) by (vm_compute; reflexivity). rewrite forallb_forall in B. apply N.ltb_lt, B, Hx.
Qed.
Definition toy_params : list N := [48; 22; 48; 20; 48; 6; 2; 1; 5; 2; 1; 2; 2; 1; 1; 4; 1; 2; 2; 1; 17; 4; 1; 2].
Definition toy_dkey (sb : option (list N)) : dstu_key := DKEY (ECKEY (Some (Binary toy_group)) None None) sb.
Example toy_params_ex : forall t, key_type t -> param_encode (key_of t toy_group (Some 5) (Some (21, 17)) None) = Ok toy_params /\ param_decode d2i_params solve_quad t toy_params = Some (toy_dkey None).
Proof. intros t [-> | ->]; vm_compute; split; reflexivity. Qed.

(** C47: parameters survive encoding and decoding, for standard and other curves, both byte
    orders and any S-box, if the cofactor is stored as 1 (as in all groups the engine builds). *)
Theorem C47_round_trip : forall d2i solve t g d Q sb der, reads_params d2i -> well_formed g -> api_group g -> good_solver (c_p (g_curve g)) solve -> sbox_ok sb -> g_cofactor g = 1 ->
  param_encode (PKEY t (Some (DKEY (ECKEY (Some (Binary g)) d Q) sb))) = Ok der ->
  exists sb', effective sb' = effective sb /\ param_decode d2i solve t der = Some (DKEY (ECKEY (Some (Binary g)) None None) sb').
Proof. exact param_keeps. Qed.
Print Assumptions C47_round_trip.
(** Encoding succeeds for the standard curves and whenever the base point has a compressed form. *)
Theorem C47_encodes : forall t g d Q sb, well_formed g -> api_group g -> curve_nid_from_group g <> 0%Z \/ has_compressed_form (g_curve g) (g_gen g) ->
  exists der, param_encode (PKEY t (Some (DKEY (ECKEY (Some (Binary g)) d Q) sb))) = Ok der.
Proof. exact param_encodes. Qed.
Print Assumptions C47_encodes.
(** C47 does not hold of groups with another cofactor, such as the true one: it is replaced by 1
    and the groups compare different. *)
Theorem C47_cofactor_refuted : forall d2i solve t g d Q sb der, reads_params d2i -> well_formed g -> api_group g -> good_solver (c_p (g_curve g)) solve -> sbox_ok sb -> g_cofactor g <> 1 ->
  param_encode (PKEY t (Some (DKEY (ECKEY (Some (Binary g)) d Q) sb))) = Ok der ->
  exists sb', param_decode d2i solve t der = Some (DKEY (ECKEY (Some (Binary (cofactor_one g))) None None) sb') /\
    group_cmp (Some (Binary g)) (Some (Binary (cofactor_one g))) = Ok 1%Z.
Proof. exact param_cofactor. Qed.
Print Assumptions C47_cofactor_refuted.
(** The curve of [toy_group] has 34 = 2 * 17 points, so its true cofactor is 2. *)
Example C47_ex : let g := GROUP toy (Some (3, 25)) 17 2 in well_formed g /\ api_group g /\ param_encode (key_of le_type g None None None) = Ok toy_params /\
  param_decode d2i_params solve_quad le_type toy_params = Some (toy_dkey None).
Proof. split; [exact toy_good|]. split; [vm_compute; repeat split; try discriminate; left; reflexivity|]. vm_compute. split; reflexivity. Qed.
(** A standard curve: only its name is written. *)
Example C47_named_ex : exists g, group_from_nid 1160 = Some g /\ param_encode (key_of be_type g None None (Some default_sbox)) = Ok [48; 15; 6; 13; 0x2A; 0x86; 0x24; 2; 1; 1; 1; 1; 3; 1; 1; 2; 0] /\
  param_decode d2i_params solve_quad be_type [48; 15; 6; 13; 0x2A; 0x86; 0x24; 2; 1; 1; 1; 1; 3; 1; 1; 2; 0] = Some (DKEY (ECKEY (Some (Binary g)) None None) None).
Proof. eexists. split; [vm_compute; reflexivity|]. split; vm_compute; reflexivity. Qed.

(** C48: key pairs survive encoding to PKCS#8 and decoding. *)
Theorem C48_round_trip : forall d2i solve t g d Q sb p8, reads_params d2i -> well_formed g -> api_group g -> good_solver (c_p (g_curve g)) solve -> sbox_ok sb -> g_cofactor g = 1 ->
  key_pair g d Q -> priv_encode (key_of t g (Some d) Q sb) = Ok p8 ->
  exists sb', effective sb' = effective sb /\ priv_decode d2i solve p8 = Some (key_of t g (Some d) Q sb').
Proof. exact priv_keeps. Qed.
Print Assumptions C48_round_trip.
Theorem C48_encodes : forall t g d Q sb, key_type t -> well_formed g -> api_group g -> curve_nid_from_group g <> 0%Z \/ has_compressed_form (g_curve g) (g_gen g) -> d <> 0 ->
  exists p8, priv_encode (key_of t g (Some d) Q sb) = Ok p8.
Proof. exact priv_total. Qed.
Print Assumptions C48_encodes.
Example C48_ex : forall t, key_type t -> priv_encode (key_of t toy_group (Some 5) (Some (21, 17)) None) = Ok (KEYINFO (ALGOR t (Some toy_params)) [5]) /\
  priv_decode d2i_params solve_quad (KEYINFO (ALGOR t (Some toy_params)) [5]) = Some (key_of t toy_group (Some 5) (Some (21, 17)) None) /\
  priv_encode (key_of t toy_group (Some 0x1234500) None None) = Ok (KEYINFO (ALGOR t (Some toy_params)) [0; 0x45; 0x23; 1]).
Proof. intros t [-> | ->]; vm_compute; repeat split. Qed.

(** C49: what is encoded decodes to the same point. *)
Theorem C49_round_trip : forall d2i d2o solve t g d k x y sb pub, reads_params d2i -> reads_octets d2o -> well_formed g -> api_group g -> good_solver (c_p (g_curve g)) solve -> sbox_ok sb -> g_cofactor g = 1 ->
  pmul (g_curve g) k (g_gen g) = Some (x, y) -> pub_encode (key_of t g d (Some (x, y)) sb) = Ok pub ->
  exists sb', effective sb' = effective sb /\ pub_decode d2i d2o solve pub = Some (key_of t g None (Some (x, y)) sb').
Proof. exact pub_keeps. Qed.
Print Assumptions C49_round_trip.
(** Exactly the points with a compressed form can be encoded. *)
Theorem C49_encodes : forall t g d k x y sb, key_type t -> well_formed g -> api_group g -> curve_nid_from_group g <> 0%Z \/ has_compressed_form (g_curve g) (g_gen g) ->
  pmul (g_curve g) k (g_gen g) = Some (x, y) -> ((exists pub, pub_encode (key_of t g d (Some (x, y)) sb) = Ok pub) <-> has_compressed_form (g_curve g) (Some (x, y))).
Proof. exact pub_encodes. Qed.
Print Assumptions C49_encodes.
(** C49 does not hold of the others, and the curves of degree 163 and 367 have some: a point
    annihilated by the order that is never encoded. *)
Theorem C49_refuted : forall t d sb nid, nid = 1160%Z \/ nid = 1168%Z -> exists g y, group_from_nid nid = Some g /\ on_curve (g_curve g) 1 y /\
  pmul (g_curve g) (g_order g) (Some (1, y)) = None /\ forall pub, pub_encode (key_of t g d (Some (1, y)) sb) <> Ok pub.
Proof. exact unencodable. Qed.
Print Assumptions C49_refuted.
Example C49_ex : forall t, key_type t -> pub_encode (key_of t toy_group (Some 5) (Some (21, 17)) None) = Ok (KEYINFO (ALGOR t (Some toy_params)) [4; 1; 20]) /\
  pub_decode d2i_params d2i_octets solve_quad (KEYINFO (ALGOR t (Some toy_params)) [4; 1; 20]) = Some (key_of t toy_group None (Some (21, 17)) None) /\
  pmul toy 8 (Some (3, 25)) = Some (1, 9) /\ pub_encode (key_of t toy_group (Some 9) (Some (1, 9)) None) = Error.
Proof. intros t [-> | ->]; vm_compute; repeat split. Qed.

(** C50: after the method for copying parameters the keys compare equal, unless the source has
    no S-box and the target has one. *)
Theorem C50_copy : forall to from to', param_copy to from = Some to' ->
  (forall key, pk_key from = Some key -> dk_sbox key = None -> forall k, pk_key to = Some k -> dk_sbox k = None) ->
  param_cmp to' from = Ok 1%Z.
Proof. exact copy_cmp. Qed.
Print Assumptions C50_copy.
(** Then C50 does not hold: the target keeps its S-box and the keys compare different. *)
Theorem C50_refuted : forall to from key s g tk, pk_key from = Some key -> dk_sbox key = None -> ek_group (dk_ec key) = Some g -> pk_key to = Some tk -> dk_sbox tk = Some s ->
  exists to', param_copy to from = Some to' /\ param_cmp to' from = Ok 0%Z /\ exists k, pk_key to' = Some k /\ ek_group (dk_ec k) = Some g /\ dk_sbox k = Some s.
Proof. exact copy_keeps. Qed.
Print Assumptions C50_refuted.
(** A key and what is decoded from its encoding compare equal, unless the key holds the default
    S-box explicitly: then always different. *)
Theorem C50_decoded : forall d2i solve t g d Q sb der k, reads_params d2i -> well_formed g -> api_group g -> good_solver (c_p (g_curve g)) solve -> sbox_ok sb -> g_cofactor g = 1 ->
  param_encode (key_of t g d Q sb) = Ok der -> param_decode d2i solve t der = Some k ->
  param_cmp (key_of t g d Q sb) (PKEY t (Some k)) = Ok (match sb with Some s => if list_eq_dec N.eq_dec s default_sbox then 0 else 1 | None => 1 end)%Z.
Proof. exact decoded_cmp_eq. Qed.
Print Assumptions C50_decoded.
(** Through OpenSSL's EVP_PKEY_copy_parameters success means that the keys compare equal. *)
Theorem C50_evp : forall to from to', evp_copy_parameters to from = Ok to' -> param_cmp to' from = Ok 1%Z.
Proof. exact evp_copy_cmp. Qed.
Print Assumptions C50_evp.
Example C50_ex : let from := PKEY le_type (Some (toy_dkey None)) in let to sb := PKEY le_type (Some (DKEY (ECKEY None None None) sb)) in
  param_copy (to None) from = Some from /\ param_cmp from from = Ok 1%Z /\
  (exists k, param_copy (to (Some default_sbox)) from = Some k /\ param_cmp k from = Ok 0%Z) /\
  param_copy (PKEY 0 None) from = Some from /\
  (exists der, param_encode (key_of le_type toy_group None None (Some default_sbox)) = Ok der /\ param_decode d2i_params solve_quad le_type der = Some (toy_dkey None)).
Proof. split; [vm_compute; reflexivity|]. split; [vm_compute; reflexivity|]. split; [eexists; split; vm_compute; reflexivity|]. split; [vm_compute; reflexivity|]. exists toy_params. vm_compute. split; reflexivity. Qed.

(** C51: what is known of decoded parameters: the S-box has 64 bytes and is used; a named curve
    is one of the ten and the group is its group; of a custom curve a is 0 or 1, the order is
    positive and the base point is on the curve. *)
Theorem C51_valid : forall solve prm le k, key_from_asn1 solve prm le = Some k ->
  exists g, ek_group (dk_ec k) = Some (Binary g) /\
  match ap_sbox prm with Some s => length s = 64%nat /\ effective (dk_sbox k) = s | None => dk_sbox k = None end /\
  match ap_curve prm with
  | Named o => exists nid, (1160 <= nid <= 1169)%Z /\ curve_nid2obj nid = Some o /\ group_from_nid nid = Some g
  | Custom c => (cu_a c = 0 \/ cu_a c = 1)%Z /\ poly_of_spec (cu_field c) = Some (c_p (g_curve g)) /\ (0 < cu_n c)%Z /\ exists x y, g_gen g = Some (x, y) /\ on_curve (g_curve g) x y
  end.
Proof. exact params_valid. Qed.
Print Assumptions C51_valid.
(** C51 does not hold of the exponents: they are taken modulo 2^32, so that a negative degree is
    accepted. *)
Theorem C51_refuted : exists f prm g, ap_curve prm = Custom (CUSTOM f 1 [2] 17 [2]) /\ (bf_m f < 0)%Z /\ params_ok prm /\
  forall le, key_from_asn1 solve_quad prm le = Some (DKEY (ECKEY (Some (Binary g)) None None) None) /\ degree (c_p (g_curve g)) = 5.
Proof.
  exact (ex_intro _ (BF (5 - 2 ^ 32) (Trinomial 2)) (ex_intro _ (PARAMS (Custom (CUSTOM (BF (5 - 2 ^ 32) (Trinomial 2)) 1 [2] 17 [2])) None) (ex_intro _ toy_group negative_degree))).
Qed.
Print Assumptions C51_refuted.
Example C51_ex : let d a n bp sb := key_from_asn1 solve_quad (PARAMS (Custom (CUSTOM (BF 5 (Trinomial 2)) a [2] n bp)) sb) true in
  d 1%Z 17%Z [2] None = Some (toy_dkey None) /\ d 2%Z 17%Z [2] None = None /\ d 1%Z 0%Z [2] None = None /\ d 1%Z 17%Z [32] None = None /\ d 1%Z 17%Z [] None = None /\
  d 1%Z 17%Z [2] (Some [1; 2]) = None /\ d 1%Z 17%Z [2] (Some (zeros 64)) = Some (toy_dkey (Some (zeros 64))) /\
  key_from_asn1 solve_quad (PARAMS (Custom (CUSTOM (BF 0 (Trinomial 2)) 1 [2] 17 [2])) None) true = None.
Proof. vm_compute. repeat split. Qed.

(** C77: comparison of keys with curve and public key is defined, and 1 exactly if curve, public
    key and S-box are the same. *)
Theorem C77_defined : forall a b, complete a -> complete b -> evp_cmp a b <> Undefined.
Proof. exact cmp_defined. Qed.
Print Assumptions C77_defined.
Theorem C77_equal : forall t g g' d d' Q Q' sb sb', key_type t ->
  evp_cmp (key_of t g d Q sb) (key_of t g' d' Q' sb') = Ok 1%Z <-> g = g' /\ Q = Q' /\ sb = sb'.
Proof. exact cmp_correct. Qed.
Print Assumptions C77_equal.
(** C77 does not hold of keys without public key: whatever parameters are decoded, comparing
    the key with itself dereferences a null pointer. *)
Theorem C77_refuted : forall d2i solve t der k, key_type t -> param_decode d2i solve t der = Some k -> evp_cmp (PKEY t (Some k)) (PKEY t (Some k)) = Undefined.
Proof. exact cmp_crashes. Qed.
Print Assumptions C77_refuted.
Example C77_ex : param_decode d2i_params solve_quad le_type toy_params = Some (toy_dkey None) /\ complete (key_of le_type toy_group None None None) /\
  evp_cmp (key_of le_type toy_group None None None) (key_of le_type toy_group None (Some (3, 25)) None) = Ok 0%Z.
Proof. split; [vm_compute; reflexivity|]. split; [|vm_compute; reflexivity]. intros k [= <-]. split; discriminate. Qed.

(** C78 does not hold: any order is accepted that is not too long; *)
Theorem C78_order_refuted : forall solve f a b n n' bp le g, group_from_asn1 solve (CUSTOM f a b n bp) le = Some g -> (0 < n')%Z -> num_bits (Z.to_N n') <= num_bits (c_p (g_curve g)) + 1 ->
  group_from_asn1 solve (CUSTOM f a b n' bp) le = Some (GROUP (g_curve g) (g_gen g) (Z.to_N n') 1).
Proof. exact order_free. Qed.
Print Assumptions C78_order_refuted.
(** and a singular curve with the singular point as base point, over any field. *)
Theorem C78_singular_refuted : forall solve f a le p, poly_of_spec f = Some p -> weight p = 3 \/ weight p = 5 -> (a = 0 \/ a = 1)%Z -> forall k, field_size (CURVE p (Z.to_N a) 0) <= N.of_nat k ->
  group_from_asn1 solve (CUSTOM f a (zeros k) 1 (zeros k)) le = Some (GROUP (CURVE p (Z.to_N a) 0) (Some (0, 0)) 1 1).
Proof. exact zero_curve. Qed.
Print Assumptions C78_singular_refuted.
Example C78_ex : let d p b n bp := group_from_asn1 solve_quad (CUSTOM (BF 5 (Trinomial p)) 1 b n bp) true in
  d 2%Z [2] 17%Z [2] = Some toy_group /\ d 2%Z [2] 5%Z [2] = Some (GROUP toy (Some (3, 25)) 5 1) /\ pmul toy 5 (Some (3, 25)) <> None /\
  d 2%Z [0] 1%Z [0] = Some (GROUP (CURVE 37 1 0) (Some (0, 0)) 1 1) /\
  d 1%Z [1] 1%Z [0] = Some (GROUP (CURVE 35 1 1) (Some (0, 1)) 1 1) /\ clmul 7 13 = 35.
Proof. vm_compute. repeat split; discriminate. Qed.

(** C79: a decoded public key is a finite point of the curve. *)
Theorem C79_on_curve : forall d2i d2o solve pub pk, pub_decode d2i d2o solve pub = Some pk -> exists t g x y sb, pk = key_of t g None (Some (x, y)) sb /\ on_curve (g_curve g) x y.
Proof. exact pub_on_curve. Qed.
Print Assumptions C79_on_curve.
(** C79 does not hold: on every curve the all-zero string decodes to a point of order 2, which
    is not a multiple of the base point. *)
Theorem C79_refuted : forall d2i d2o solve t prm g sb w, reads_octets d2o -> key_type t -> well_formed g -> api_group g -> good_solver (c_p (g_curve g)) solve ->
  param_decode d2i solve t prm = Some (DKEY (ECKEY (Some (Binary g)) None None) sb) -> der_octets (zeros (N.to_nat (field_size (g_curve g)))) w ->
  exists y, pub_decode d2i d2o solve (KEYINFO (ALGOR t (Some prm)) w) = Some (key_of t g None (Some (0, y)) sb) /\
    pmul (g_curve g) 2 (Some (0, y)) = None /\ forall k, pmul (g_curve g) k (g_gen g) <> Some (0, y).
Proof. exact zero_accepted_der. Qed.
Print Assumptions C79_refuted.
Example C79_ex : forall t, key_type t -> pub_decode d2i_params d2i_octets solve_quad (KEYINFO (ALGOR t (Some toy_params)) [4; 1; 0]) = Some (key_of t toy_group None (Some (0, 27)) None) /\
  pub_decode d2i_params d2i_octets solve_quad (KEYINFO (ALGOR t (Some toy_params)) [4; 1; 33]) = None.
Proof. intros t [-> | ->]; vm_compute; split; reflexivity. Qed.

(** C80: any octets are accepted as a private key; the public key is computed from them. *)
Theorem C80_any : forall d2i solve t prm g sb bytes, key_type t -> param_decode d2i solve t prm = Some (DKEY (ECKEY (Some (Binary g)) None None) sb) -> bytes <> [] ->
  priv_decode d2i solve (KEYINFO (ALGOR t (Some prm)) bytes) = Some (key_of t g (Some (le_val bytes)) (pneg (pmul (g_curve g) (le_val bytes) (g_gen g))) sb).
Proof. exact priv_any. Qed.
Print Assumptions C80_any.
(** So C80 does not hold: zero gives the point at infinity, and numbers beyond the order pass. *)
Theorem C80_refuted : forall d2i solve t prm g sb, key_type t -> param_decode d2i solve t prm = Some (DKEY (ECKEY (Some (Binary g)) None None) sb) ->
  priv_decode d2i solve (KEYINFO (ALGOR t (Some prm)) [0]) = Some (key_of t g (Some 0) None sb) /\
  forall d, g_order g <= d -> exists bytes, priv_decode d2i solve (KEYINFO (ALGOR t (Some prm)) bytes) = Some (key_of t g (Some d) (pneg (pmul (g_curve g) d (g_gen g))) sb).
Proof. exact priv_range. Qed.
Print Assumptions C80_refuted.
(** What is decoded from zero cannot be encoded again. *)
Theorem C80_zero : forall t g Q sb p8, priv_encode (key_of t g (Some 0) Q sb) <> Ok p8.
Proof. exact priv_zero. Qed.
Print Assumptions C80_zero.
Example C80_ex : forall t, key_type t -> let dec b := priv_decode d2i_params solve_quad (KEYINFO (ALGOR t (Some toy_params)) b) in
  dec [0] = Some (key_of t toy_group (Some 0) None None) /\ dec [22] = Some (key_of t toy_group (Some 22) (Some (21, 17)) None) /\ dec [] = None.
Proof. intros t [-> | ->]; vm_compute; repeat split. Qed.

(** C82 does not hold: EVP_PKEY_copy_parameters to a key without parameters fails always. *)
Theorem C82_refuted : forall t from, key_type (pk_type from) -> t = 0%Z \/ t = pk_type from -> evp_copy_parameters (PKEY t None) from = Error.
Proof. exact evp_copy_empty. Qed.
Print Assumptions C82_refuted.
Example C82_ex : evp_copy_parameters (PKEY 0 None) (key_of le_type toy_group None (Some (3, 25)) None) = Error /\
  param_copy (PKEY 0 None) (key_of le_type toy_group None (Some (3, 25)) None) = Some (PKEY le_type (Some (toy_dkey None))).
Proof. vm_compute. split; reflexivity. Qed.

(** C83: encoding a key reads memory that was never written exactly for field polynomials of
    three terms without constant term. *)
Theorem C83_exact : forall g d Q sb le, weight (c_p (g_curve g)) = 3 \/ weight (c_p (g_curve g)) = 5 -> degree (c_p (g_curve g)) < 2 ^ 30 ->
  (asn1_from_key (DKEY (ECKEY (Some (Binary g)) d Q) sb) le = Undefined <-> g_order g <> 0 /\ weight (c_p (g_curve g)) = 3 /\ N.testbit (c_p (g_curve g)) 0 = false).
Proof. exact encode_undefined. Qed.
Print Assumptions C83_exact.
(** OpenSSL accepts such a curve (on it the point (0, 1) with b = 1). *)
Theorem C83_refuted : exists c g, new_curve 38 0 1 = Some c /\ set_affine c 0 1 = Some (Some (0, 1)) /\ set_generator c (Some (0, 1)) 3 1 = Some g /\
  forall t d Q sb, param_encode (key_of t g d Q sb) = Undefined.
Proof. exact (ex_intro _ (CURVE 38 0 1) (ex_intro _ (GROUP (CURVE 38 0 1) (Some (0, 1)) 3 1) (conj eq_refl (conj eq_refl (conj eq_refl encode_uninit))))). Qed.
Print Assumptions C83_refuted.
Example C83_ex : weight (c_p (g_curve toy_group)) = 3 /\ (forall t, key_type t -> param_encode (key_of t toy_group None None None) = Ok toy_params).
Proof. split; [reflexivity|]. intros t [-> | ->]; vm_compute; reflexivity. Qed.
