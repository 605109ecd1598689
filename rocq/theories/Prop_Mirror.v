(** Properties relating the two key types (engine/pmeth.c, engine/ameth.c, dstulib/key.c). *)
From Coq Require Import Lia ZArith.
From Verif Require Import Base Lib Model_Params Model_Gf2m Model_Compress Model_Ec Model_Utils Model_Curves Model_Sign Model_Asn1 Model_Pmeth Model_Key Model_Ameth
  Spec_Asn1 Spec_Sign Spec_Pmeth Spec_Toy Spec_Mirror Proof_Asn1 Proof_Mirror.

(** C143: 1158 is the little-endian key type, 1159 the big-endian one.  With the same key, digest
    and random numbers both sign or fail alike, report the same length, and what they write are
    the encodings of a string and of its reversal. *)
Theorem C143_sign : forall fuel k sig siglen tbs src,
  match pkey_sign fuel (Some (PKEY 1159 k)) sig siglen tbs src, pkey_sign fuel (Some (PKEY 1158 k)) sig siglen tbs src with
  | Done (r, n, w), Done (r', n', w') => r' = r /\ n' = n /\ (w = [] /\ w' = [] \/ exists c, der_octets c w /\ der_octets (rev c) w')
  | Running, Running => True
  | _, _ => False
  end.
Proof. exact mirror_sign. Qed.
Print Assumptions C143_sign.
(** One accepts a string exactly if the other accepts its reversal. *)
Theorem C143_verify : forall d2i k c w w' tbs, reads_octets d2i -> N.of_nat (length c) < 2 ^ 31 -> der_octets c w -> der_octets (rev c) w' ->
  pkey_verify d2i (Some (PKEY 1158 k)) w' tbs = pkey_verify d2i (Some (PKEY 1159 k)) w tbs.
Proof. exact mirror_verify. Qed.
Print Assumptions C143_verify.
(** Private keys: both are written or refused alike, the number is written the same way (not
    reversed), the strings in the parameters are reversed. *)
Theorem C143_private_written : forall k, match priv_encode (PKEY 1159 k), priv_encode (PKEY 1158 k) with
  | Ok i, Ok i' => ki_key i' = ki_key i /\ exists p, reversed_algorithm p (ki_alg i) (ki_alg i')
  | Error, Error => True | Undefined, Undefined => True | _, _ => False end.
Proof. exact mirror_priv_written. Qed.
Print Assumptions C143_private_written.
(** Public keys: the string that stands for the point is reversed too. *)
Theorem C143_public_written : forall k, match pub_encode (PKEY 1159 k), pub_encode (PKEY 1158 k) with
  | Ok i, Ok i' => (exists s, der_octets s (ki_key i) /\ der_octets (rev s) (ki_key i')) /\ exists p, reversed_algorithm p (ki_alg i) (ki_alg i')
  | Error, Error => True | Undefined, Undefined => True | _, _ => False end.
Proof. exact mirror_pub_written. Qed.
Print Assumptions C143_public_written.
(** Reading: what is refused in one byte order is refused in the other, and what is read is the
    same key, apart from its type; whatever the parameters are, if no string is empty. *)
Theorem C143_private_read : forall d2i solve p a a' key, reads_params d2i -> params_ok p -> no_empty_string p -> reversed_algorithm p a a' ->
  same_key (priv_decode d2i solve (KEYINFO a key)) (priv_decode d2i solve (KEYINFO a' key)).
Proof. exact mirror_priv_read. Qed.
Print Assumptions C143_private_read.
Theorem C143_public_read : forall d2i d2o solve p a a' s w w', reads_params d2i -> reads_octets d2o -> params_ok p -> no_empty_string p -> reversed_algorithm p a a' ->
  s <> [] -> N.of_nat (length s) < 2 ^ 31 -> der_octets s w -> der_octets (rev s) w' ->
  same_key (pub_decode d2i d2o solve (KEYINFO a w)) (pub_decode d2i d2o solve (KEYINFO a' w')).
Proof. exact mirror_pub_read. Qed.
Print Assumptions C143_public_read.
(** With an empty string the two differ: an empty coefficient b is refused in the little-endian
    order, and is zero in the other. *)
Theorem C143_empty : forall d2i, reads_params d2i ->
  (forall solve c sb w key, params_ok (PARAMS (Custom c) sb) -> cu_b c = [] -> der_params (PARAMS (Custom c) sb) w -> priv_decode d2i solve (KEYINFO (ALGOR 1158 (Some w)) key) = None) /\
  exists c w k g, cu_b c = [] /\ der_params (PARAMS (Custom c) None) w /\ priv_decode d2i solve_quad (KEYINFO (ALGOR 1159 (Some w)) [5]) = Some k /\
    pkey_group k = Some (Binary g) /\ c_b (g_curve g) = 0.
Proof. exact mirror_empty. Qed.
Print Assumptions C143_empty.
(** [wide] describes the small curve, its coefficient b = 2 written with two bytes. *)
Definition wide_alg (le : bool) : algor := ALGOR (if le then 1158 else 1159)%Z (Some (enc_params (wide le))).
Example C143_ex : params_ok (wide false) /\ no_empty_string (wide false) /\ reversed_algorithm (wide false) (wide_alg false) (wide_alg true) /\
  reads_params d2i_params /\ reads_octets d2i_octets /\ al_params (wide_alg true) <> al_params (wide_alg false) /\
  (let k t := PKEY t (Some (DKEY (ECKEY (Some (Binary toy_group)) (Some 5) (Some (Some (21, 17)))) None)) in
   priv_decode d2i_params solve_quad (KEYINFO (wide_alg false) [5]) = Some (k 1159%Z) /\ priv_decode d2i_params solve_quad (KEYINFO (wide_alg true) [5]) = Some (k 1158%Z) /\
   pkey_verify d2i_octets (Some (k 1159%Z)) [4; 2; 5; 12] [11] = true /\ pkey_verify d2i_octets (Some (k 1158%Z)) [4; 2; 12; 5] [11] = true /\
   pkey_verify d2i_octets (Some (k 1158%Z)) [4; 2; 5; 12] [11] = false).
Proof.
  split. { exact wide_ok. }
  split; [split; discriminate|]. split.
  { split; [reflexivity|]. split; [reflexivity|]. exists (wide true). eexists. eexists. split; [reflexivity|]. split; [reflexivity|]. split; [apply enc_params_der|]. split; [apply enc_params_der|]. split; reflexivity. }
  split; [exact d2i_params_reads|]. split; [exact d2i_octets_reads|]. split; [discriminate|]. vm_compute. repeat split.
Qed.
