(** The octets of encoded keys (engine/ameth.c, dstulib/key.c, dstulib/asn1.c). *)
From Coq Require Import ZArith List Lia.
Import ListNotations.
From Verif Require Import Base Model_Params Model_Gf2m Model_Compress Model_Ec Model_Curves Model_Sign Model_Asn1 Model_Pmeth Model_Utils Model_Key Model_Ameth
  Spec_Gf2m Spec_Compress Spec_Curves Spec_Asn1 Spec_Keylib Spec_Sign Spec_Pmeth Spec_Key Spec_Toy Spec_Wire Proof_Asn1 Proof_Toy Proof_Wire Prop_Key.
Open Scope N_scope.

(** C90: what is written: the distinguished encoding of a structure that says which curve and
    S-box it is, octet strings in the byte order of the key type. *)
Theorem C90_params : forall t g d Q sb der, well_formed g -> api_group g -> param_encode (PKEY t (Some (DKEY (ECKEY (Some (Binary g)) d Q) sb))) = Ok der ->
  exists p, der_params p der /\ params_say t p g sb.
Proof. exact params_wire. Qed.
Print Assumptions C90_params.
(** The private number is written with the least octet first for both key types, in as many
    octets as needed. *)
Theorem C90_priv : forall t g d Q sb p8, well_formed g -> api_group g -> priv_encode (key_of t g (Some d) Q sb) = Ok p8 ->
  al_nid (ki_alg p8) = t /\ (exists der p, al_params (ki_alg p8) = Some der /\ der_params p der /\ params_say t p g sb) /\
  bytes (ki_key p8) /\ be_val (rev (ki_key p8)) = d /\ last (ki_key p8) 0 <> 0.
Proof. exact priv_wire. Qed.
Print Assumptions C90_priv.
(** The public key is written as an OCTET STRING of its compressed form. *)
Theorem C90_pub : forall t g d k x y sb pub, well_formed g -> api_group g -> pmul (g_curve g) k (g_gen g) = Some (x, y) -> pub_encode (key_of t g d (Some (x, y)) sb) = Ok pub ->
  al_nid (ki_alg pub) = t /\ (exists der p, al_params (ki_alg pub) = Some der /\ der_params p der /\ params_say t p g sb) /\
  exists s, der_octets s (ki_key pub) /\ point_string t (g_curve g) s (Some (x, y)).
Proof. exact pub_wire. Qed.
Print Assumptions C90_pub.

(** C91: what says a key is read as this key, whoever wrote it. *)
Theorem C91_params : forall d2i solve t p g sb der, reads_params d2i -> well_formed g -> api_group g -> good_solver (c_p (g_curve g)) solve -> sbox_ok sb -> params_ok p ->
  (g_cofactor g = 1 \/ exists i, standard_group i = Some g) -> der_params p der -> params_say t p g sb ->
  exists sb', effective sb' = effective sb /\ param_decode d2i solve t der = Some (DKEY (ECKEY (Some (Binary g)) None None) sb').
Proof. exact params_read. Qed.
Print Assumptions C91_params.
Theorem C91_priv : forall d2i solve t p g d Q sb der s, reads_params d2i -> key_type t -> well_formed g -> api_group g -> good_solver (c_p (g_curve g)) solve -> sbox_ok sb -> params_ok p ->
  (g_cofactor g = 1 \/ exists i, standard_group i = Some g) -> der_params p der -> params_say t p g sb -> s <> [] -> be_val (rev s) = d -> key_pair g d Q ->
  exists sb', effective sb' = effective sb /\ priv_decode d2i solve (KEYINFO (ALGOR t (Some der)) s) = Some (key_of t g (Some d) Q sb').
Proof. exact priv_read. Qed.
Print Assumptions C91_priv.
Theorem C91_pub : forall d2i d2o solve t p g x y sb der s w, reads_params d2i -> reads_octets d2o -> key_type t -> well_formed g -> api_group g -> good_solver (c_p (g_curve g)) solve -> sbox_ok sb -> params_ok p ->
  (g_cofactor g = 1 \/ exists i, standard_group i = Some g) -> der_params p der -> params_say t p g sb -> der_octets s w -> point_string t (g_curve g) s (Some (x, y)) ->
  exists sb', effective sb' = effective sb /\ pub_decode d2i d2o solve (KEYINFO (ALGOR t (Some der)) w) = Some (key_of t g None (Some (x, y)) sb').
Proof. exact pub_read. Qed.
Print Assumptions C91_pub.

(** The small curve meets all hypotheses; strings of two octets show the byte order. *)
Example C90_ex : well_formed toy_group /\ api_group toy_group /\ good_solver (c_p (g_curve toy_group)) solve_quad /\ reads_params d2i_params /\ reads_octets d2i_octets /\ g_cofactor toy_group = 1 /\
  (forall t, key_type t -> exists p, der_params p toy_params /\ params_say t p toy_group None) /\
  pmul (g_curve toy_group) 12 (g_gen toy_group) = Some (21, 17) /\ (exists pub, pub_encode (key_of le_type toy_group None (Some (21, 17)) None) = Ok pub).
Proof.
  split; [apply toy_key_ex|]. split; [apply toy_key_ex|]. split; [apply toy_key_ex|]. split; [apply toy_key_ex|]. split; [apply toy_key_ex|]. split; [reflexivity|]. split.
  { intros t T. apply (C90_params t toy_group (Some 5) (Some (Some (21, 17))) None); [apply toy_key_ex|apply toy_key_ex|]. exact (proj1 (toy_params_ex t T)). }
  split; [vm_compute; reflexivity|]. eexists. vm_compute. reflexivity.
Qed.
Definition group11 : group := GROUP (CURVE 0x805 1 0x123) (Some (0x456, 0x78)) 0x501 1.
Example C90_order_ex :
  param_encode (PKEY be_type (Some (DKEY (ECKEY (Some (Binary group11)) None None) None))) = Ok [48; 25; 48; 23; 48; 6; 2; 1; 11; 2; 1; 2; 2; 1; 1; 4; 2; 1; 0x23; 2; 2; 5; 1; 4; 2; 4; 0x57] /\
  param_encode (PKEY le_type (Some (DKEY (ECKEY (Some (Binary group11)) None None) None))) = Ok [48; 25; 48; 23; 48; 6; 2; 1; 11; 2; 1; 2; 2; 1; 1; 4; 2; 0x23; 1; 2; 2; 5; 1; 4; 2; 0x57; 4].
Proof. vm_compute. split; reflexivity. Qed.

(** C50: copying parameters keeps the numbers of the target. *)
Theorem C50_numbers : forall to from to', param_copy to from = Some to' -> exists k fk, pk_key to' = Some k /\ pk_key from = Some fk /\ ek_group (dk_ec k) = ek_group (dk_ec fk) /\
  match pk_key to with
  | Some tk => pk_type to' = pk_type to /\ ek_priv (dk_ec k) = ek_priv (dk_ec tk) /\ ek_pub (dk_ec k) = ek_pub (dk_ec tk)
  | None => pk_type to' = pk_type from /\ ek_priv (dk_ec k) = None /\ ek_pub (dk_ec k) = None
  end.
Proof. exact copy_rest. Qed.
Print Assumptions C50_numbers.
