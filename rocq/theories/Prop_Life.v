(** Properties of keys on the standard curves from generation to use. *)
From Coq Require Import Lia ZArith Znumtheory.
From Verif Require Import Base Lib Model_Params Model_Gf2m Model_Compress Model_Ec Model_Utils Model_Curves Model_Sign Model_Asn1 Model_Pmeth Model_Key Model_Ameth
  Spec_Gf2m Spec_Compress Spec_Curves Spec_Asn1 Spec_Sign Spec_Pmeth Spec_Key
  Proof_Asn1 Proof_Compress2 Proof_Life.

(** C92: on a standard curve exactly the multiples of the order annihilate the base point. *)
Theorem C92_order : forall nid g k, group_from_nid nid = Some g -> (pmul (g_curve g) k (g_gen g) = None <-> N.divide (g_order g) k).
Proof. exact gen_order. Qed.
Print Assumptions C92_order.
(** Different private keys have different public keys. *)
Theorem C92_injective : forall nid g d d' q q' k k', group_from_nid nid = Some g -> d < g_order g -> d' < g_order g ->
  add_public_key (ECKEY (Some (Binary g)) (Some d) q) = Some k -> add_public_key (ECKEY (Some (Binary g)) (Some d') q') = Some k' -> ek_pub k = ek_pub k' -> d = d'.
Proof. exact add_injective. Qed.
Print Assumptions C92_injective.
(** The public key of a private key in range is a point of the curve other than infinity. *)
Theorem C92_finite : forall nid g d q k, group_from_nid nid = Some g -> 0 < d < g_order g -> add_public_key (ECKEY (Some (Binary g)) (Some d) q) = Some k ->
  exists x y, ek_pub k = Some (Some (x, y)) /\ on_curve (g_curve g) x y.
Proof. exact add_finite. Qed.
Print Assumptions C92_finite.
Example C92_ex : exists g k k', group_from_nid 1160 = Some g /\ 1 < g_order g /\ 2 < g_order g /\
  add_public_key (ECKEY (Some (Binary g)) (Some 1) None) = Some k /\ add_public_key (ECKEY (Some (Binary g)) (Some 2) None) = Some k' /\ ek_pub k <> ek_pub k' /\ ek_pub k <> Some None.
Proof.
  eexists _, _, _. split; [vm_compute; reflexivity|]. split; [reflexivity|]. split; [reflexivity|]. split; [vm_compute; reflexivity|]. split; [vm_compute; reflexivity|].
  split; discriminate.
Qed.

(** C93: a key generated on a standard curve can be stored; its private and public parts can be
    loaded, and what the loaded private key signs the loaded public key accepts.  On the curves
    of degree 163 and 367 the public key must have a compressed form (C49_refuted). *)
Theorem C93_lifetime : forall d2i d2o solve nid g t sb fuel d0 q0 src k, reads_params d2i -> reads_octets d2o -> group_from_nid nid = Some g -> good_solver (c_p (g_curve g)) solve ->
  key_type t -> sbox_ok sb -> ranged (g_order g) src -> generate_key fuel (ECKEY (Some (Binary g)) d0 q0) src = Done k ->
  (nid <> 1160 /\ nid <> 1168)%Z \/ (forall P, ek_pub k = Some P -> has_compressed_form (g_curve g) P) ->
  exists p8 pub kd kv, priv_encode (PKEY t (Some (DKEY k sb))) = Ok p8 /\ pub_encode (PKEY t (Some (DKEY k sb))) = Ok pub /\
    priv_decode d2i solve p8 = Some kd /\ pub_decode d2i d2o solve pub = Some kv /\
    forall fuel siglen tbs src len w, ranged (g_order g) src -> pkey_sign fuel (Some kd) true siglen tbs src = Done (true, len, w) ->
      pkey_verify d2o (Some kv) w tbs = true /\ pkey_verify d2o (Some kd) w tbs = true /\ pkey_verify d2o (Some (PKEY t (Some (DKEY k sb)))) w tbs = true.
Proof. exact lifetime. Qed.
Print Assumptions C93_lifetime.
Definition twos : source := fun _ => Some 2.
Example C93_ex : reads_params d2i_params /\ reads_octets d2i_octets /\ exists g k, group_from_nid 1161 = Some g /\ good_solver (c_p (g_curve g)) solve_quad /\ ranged (g_order g) twos /\
  generate_key 1 (ECKEY (Some (Binary g)) None None) twos = Done k.
Proof.
  split; [exact d2i_params_reads|]. split; [exact d2i_octets_reads|]. eexists _, _. split; [vm_compute; reflexivity|].
  split; [|split; [intros i v [= <-]; reflexivity|vm_compute; reflexivity]].
  assert (W : forall g, group_from_nid 1161 = Some g -> good_solver (c_p (g_curve g)) solve_quad).
  { intros g E. destruct (nid_facts _ _ E) as (W & _). destruct (proj1 W) as (Hi & Ho & _). apply half_trace_solver; assumption. }
  apply W. vm_compute. reflexivity.
Qed.

(** C104: EVP_PKEY_size is exactly the length of every signature (not only a bound), and what
    EVP_PKEY_bits and EVP_PKEY_size report for the standard curves. *)
Theorem C104_exact : forall pk fuel siglen tbs src len w, pkey_sign fuel (Some pk) true siglen tbs src = Done (true, len, w) ->
  len = pkey_size pk /\ N.of_nat (length w) = pkey_size pk /\ pkey_size pk <= siglen.
Proof. exact sign_size. Qed.
Print Assumptions C104_exact.
Theorem C104_standard : forall nid g t d q sb, group_from_nid nid = Some g ->
  In (nid, pkey_bits (PKEY t (Some (DKEY (ECKEY (Some (Binary g)) d q) sb))), pkey_size (PKEY t (Some (DKEY (ECKEY (Some (Binary g)) d q) sb))))
    [(1160%Z, 163, 44); (1161%Z, 167, 44); (1162%Z, 173, 46); (1163%Z, 179, 48); (1164%Z, 191, 50); (1165%Z, 233, 62); (1166%Z, 257, 66); (1167%Z, 307, 80); (1168%Z, 367, 94); (1169%Z, 431, 110)].
Proof. exact std_sizes. Qed.
Print Assumptions C104_standard.
Example C104_ex : exists g w, group_from_nid 1161 = Some g /\ pkey_sign 1 (Some (PKEY 0 (Some (DKEY (ECKEY (Some (Binary g)) (Some 5) None) None)))) true 44 [11] twos = Done (true, 44, w) /\ length w = 44%nat.
Proof. eexists _, _. split; [vm_compute; reflexivity|]. split; [vm_compute; reflexivity|reflexivity]. Qed.
