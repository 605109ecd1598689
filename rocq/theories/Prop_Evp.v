(** Property C109: signing and verifying messages. *)
From Coq Require Import Lia ZArith Znumtheory.
From Verif Require Import Base Lib Model_Gost89 Model_Params Model_Hash Spec_Gost89 Spec_Params Spec_Hash Spec_Md.
From Verif Require Import Model_Gf2m Model_Compress Model_Ec Model_Curves Model_Sign Model_Asn1 Model_Pmeth Model_Key Model_Ameth Model_Evp
  Spec_Gf2m Spec_Compress Spec_Curves Spec_Asn1 Spec_Sign Spec_Pmeth Spec_Key Proof_Evp.
From Verif Require Prop_Life Prop_Hash.

(** Whatever the pieces and whatever the memory held, signing and verifying a message is signing
    and verifying the digest of the whole message with the S-box of the key. *)
Theorem C109_sign_is : forall h h' c c' fuel t k sb ds siglen src, sbox_ok sb -> Forall bytes ds -> hashable (length (concat ds)) ->
  digest_sign h h' c c' fuel (PKEY t (Some (DKEY k sb))) ds siglen src =
  Some (pkey_sign fuel (Some (PKEY t (Some (DKEY k sb)))) true siglen (digest (packed_sbox (effective sb)) (concat ds)) src).
Proof. exact digest_sign_ok. Qed.
Print Assumptions C109_sign_is.
Theorem C109_verify_is : forall h h' c c' d2o t k sb ds sig, sbox_ok sb -> Forall bytes ds -> hashable (length (concat ds)) ->
  digest_verify h h' c c' d2o (PKEY t (Some (DKEY k sb))) ds sig =
  Some (pkey_verify d2o (Some (PKEY t (Some (DKEY k sb)))) sig (digest (packed_sbox (effective sb)) (concat ds))).
Proof. exact digest_verify_ok. Qed.
Print Assumptions C109_verify_is.

(** From generation to verification: the key of C93, loaded from what was stored, signs a message
    given in any pieces; the loaded public key, the loaded private key and the original accept the
    signature for the message given in any other pieces. *)
Theorem C109_messages : forall d2i d2o solve nid g t sb fuel d0 q0 src k, reads_params d2i -> reads_octets d2o -> group_from_nid nid = Some g -> good_solver (c_p (g_curve g)) solve ->
  key_type t -> sbox_ok sb -> ranged (g_order g) src -> generate_key fuel (ECKEY (Some (Binary g)) d0 q0) src = Done k ->
  (nid <> 1160 /\ nid <> 1168)%Z \/ (forall P, ek_pub k = Some P -> has_compressed_form (g_curve g) P) ->
  exists p8 pub kd kv, priv_encode (PKEY t (Some (DKEY k sb))) = Ok p8 /\ pub_encode (PKEY t (Some (DKEY k sb))) = Ok pub /\
    priv_decode d2i solve p8 = Some kd /\ pub_decode d2i d2o solve pub = Some kv /\
    forall h h' c c' v v' x x' fuel ds ds' siglen src len w, Forall bytes ds -> Forall bytes ds' -> concat ds' = concat ds -> hashable (length (concat ds)) -> ranged (g_order g) src ->
      digest_sign h h' c c' fuel kd ds siglen src = Some (Done (true, len, w)) ->
      digest_verify v v' x x' d2o kv ds' w = Some true /\ digest_verify v v' x x' d2o kd ds' w = Some true /\ digest_verify v v' x x' d2o (PKEY t (Some (DKEY k sb))) ds' w = Some true.
Proof. exact message_lifetime. Qed.
Print Assumptions C109_messages.
(** With C93_ex: a message in two pieces and in three. *)
Example C109_ex : let ds := [[1; 2]; [3; 4; 5]] in let ds' := [[1]; []; [2; 3; 4; 5]] in
  Forall bytes ds /\ Forall bytes ds' /\ concat ds' = concat ds /\ hashable (length (concat ds)).
Proof. split; [repeat constructor|]. split; [repeat constructor|]. split; reflexivity. Qed.
(** Signing it ends with a signature of 44 bytes. *)
Eval vm_compute in match group_from_nid 1161 with
  | Some g => match digest_sign zero_dctx zero_dctx zero_ctx zero_ctx 1 (PKEY 1159%Z (Some (DKEY (ECKEY (Some (Binary g)) (Some 5) None) (Some (rev default_sbox))))) [[1; 2]; [3; 4; 5]] 44 Prop_Life.twos with
    | Some (Done (true, len, w)) => (len =? 44) && Nat.eqb (length w) 44
    | _ => false end
  | None => false end.
