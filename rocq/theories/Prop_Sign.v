(** Properties of signatures and key generation (engine/sign.c, dstulib/params.c). *)
From Coq Require Import Lia ZArith.
From Verif Require Import Base Lib Model_Gf2m Model_Compress Model_Ec Model_Curves Model_Sign Spec_Gf2m Spec_Compress Spec_Curves Spec_Sign Spec_Toy
  Proof_Toy Proof_Sign Proof_Sign2.

(** A key of the small curve: d = 5, Q = -5G. *)
Definition toy_key : eckey := ECKEY (Some (Binary toy_group)) (Some 5) (Some (Some (21, 17))).
Example toy_key_ex : key_pair toy_group 5 (Some (21, 17)) /\ well_formed toy_group.
Proof. split; [vm_compute; reflexivity|exact toy_good]. Qed.

(** C35: the first value of the random source that is not zero becomes the private key. *)
Theorem C35_generate : forall fuel g d0 q0 src k, well_formed g -> ranged (g_order g) src ->
  generate_key fuel (ECKEY (Some (Binary g)) d0 q0) src = Done k ->
  exists d Q, k = ECKEY (Some (Binary g)) (Some d) (Some Q) /\ 1 <= d < g_order g /\ key_pair g d Q.
Proof. exact generate_pair. Qed.
Print Assumptions C35_generate.
Theorem C35_retries_on_zero : forall fuel g d0 q0 src, g_order g <> 0 ->
  let run := generate_key fuel (ECKEY (Some (Binary g)) d0 q0) src in
  (forall k, run = Done k <-> exists i d, (i < fuel)%nat /\ (forall j, (j < i)%nat -> src j = Some 0) /\ src i = Some d /\ d <> 0 /\
     k = ECKEY (Some (Binary g)) (Some d) (Some (pneg (pmul (g_curve g) d (g_gen g))))) /\
  (run = Failed <-> exists i, (i < fuel)%nat /\ (forall j, (j < i)%nat -> src j = Some 0) /\ src i = None).
Proof. exact (fun fuel g d0 q0 src H => conj (fun k => generate_iff fuel g d0 q0 src k H) (generate_failed fuel g d0 q0 src H)). Qed.
Print Assumptions C35_retries_on_zero.
Definition src35 : source := fun i => if (i <? 3)%nat then Some 0 else Some 5.
Example C35_ex : ranged 17 src35 /\ generate_key 9 (ECKEY (Some (Binary toy_group)) None None) src35 = Done toy_key /\
  generate_key 3 (ECKEY (Some (Binary toy_group)) None None) src35 = Running /\ generate_key 9 (ECKEY (Some (Binary toy_group)) None None) (fun _ => None) = Failed.
Proof. split; [intros i v; unfold src35; destruct (i <? 3)%nat; intros [= <-]; reflexivity|]. vm_compute. repeat split. Qed.

(** C39: a signature that was made is accepted, by whoever has the public key. *)
Theorem C39_sign_verify : forall fuel g d Q tbs src sig, well_formed g -> key_pair g d Q -> ranged (g_order g) src ->
  do_sign fuel (ECKEY (Some (Binary g)) (Some d) (Some Q)) tbs src = Done sig -> do_verify (ECKEY (Some (Binary g)) None (Some Q)) tbs sig = true.
Proof. exact sign_verify. Qed.
Print Assumptions C39_sign_verify.
Example C39_ex : ranged 17 (fun _ => Some 3) /\ do_sign 1 toy_key [11] (fun _ => Some 3) = Done [12; 12] /\
  do_verify (ECKEY (Some (Binary toy_group)) None (Some (Some (21, 17)))) [11] [12; 12] = true /\
  do_verify (ECKEY (Some (Binary toy_group)) None (Some (Some (21, 17)))) [10] [12; 12] = false.
Proof. split; [intros i v [= <-]; reflexivity|]. vm_compute. repeat split. Qed.

(** C40: its size and halves; it is the signature of the standard for a nonce of the source. *)
Theorem C40_format : forall fuel g d Q tbs src sig, 1 < c_p (g_curve g) -> g_order g <> 0 -> ranged (g_order g) src ->
  do_sign fuel (ECKEY (Some (Binary g)) (Some d) Q) tbs src = Done sig ->
  let size := N.to_nat (num_bytes (g_order g)) in
  length sig = (2 * size)%nat /\ bytes sig /\
  exists s r e k, 1 <= s < g_order g /\ 1 <= r < g_order g /\ be_val (firstn size sig) = s /\ be_val (skipn size sig) = r /\
    src k = Some e /\ signature_of g d e tbs s r.
Proof. exact sign_format. Qed.
Print Assumptions C40_format.
Example C40_ex : num_bytes (g_order toy_group) = 1 /\ do_sign 1 toy_key [11] (fun _ => Some 3) = Done [12; 12].
Proof. vm_compute. split; reflexivity. Qed.

(** C41: verification is the equation of the standard; for any group, key and string.  The
    halves are those of the string without a last odd byte. *)
Theorem C41_verify_iff : forall g d Q tbs sig, 1 < c_p (g_curve g) -> g_order g <> 0 ->
  let half := (length sig / 2)%nat in
  do_verify (ECKEY (Some (Binary g)) d (Some Q)) tbs sig = true <->
  tbs <> [] /\ valid_signature g Q tbs (be_val (firstn half sig)) (be_val (firstn half (skipn half sig))).
Proof. exact verify_iff. Qed.
Print Assumptions C41_verify_iff.
Example C41_ex : let v := do_verify (ECKEY (Some (Binary toy_group)) None (Some (Some (21, 17)))) [11] in
  v [12; 12] = true /\ v [0; 12] = false /\ v [12; 0] = false /\ v [29; 12] = false /\ v [12; 29] = false /\ v [12; 14] = false /\ v [13; 12] = true /\ v [14; 12] = false /\ v [] = false.
Proof. vm_compute. repeat split. Qed.

(** C42 does not hold: on the curves of degree up to 233 there is a 32 byte digest for which
    signing never returns, whatever the key, as long as the random source gives nonces whose
    multiple of the base point is finite. *)
Theorem C42_refuted : forall nid, (1160 <= nid <= 1165)%Z -> exists g digest, group_from_nid nid = Some g /\ bytesn 32 digest /\
  forall d Q src, (forall i, exists e, src i = Some e /\ e < g_order g /\ pmul (g_curve g) e (g_gen g) <> None) ->
  forall fuel, do_sign fuel (ECKEY (Some (Binary g)) (Some d) Q) digest src = Running.
Proof. exact never_std. Qed.
Print Assumptions C42_refuted.
(** Otherwise it returns on all standard curves, if every nonce is drawn some time. *)
Theorem C42_returns : forall nid g d Q tbs src, group_from_nid nid = Some g -> field_of_digest (degree (c_p (g_curve g))) tbs <> 0 ->
  (forall e, 1 <= e < g_order g -> exists i, src i = Some e) -> exists fuel, do_sign fuel (ECKEY (Some (Binary g)) (Some d) Q) tbs src <> Running.
Proof. exact std_returns. Qed.
Print Assumptions C42_returns.
(** So on the larger curves it returns for all digests of 32 bytes. *)
Theorem C42_large_curves : forall nid g d Q tbs src, (1166 <= nid)%Z -> group_from_nid nid = Some g -> bytesn 32 tbs ->
  (forall e, 1 <= e < g_order g -> exists i, src i = Some e) -> exists fuel, do_sign fuel (ECKEY (Some (Binary g)) (Some d) Q) tbs src <> Running.
Proof. exact large_returns. Qed.
Print Assumptions C42_large_curves.
(** The result does not depend on the number of steps allowed, once it is there. *)
Theorem C42_stable : forall key tbs src f1 f2, (f1 <= f2)%nat -> do_sign f1 key tbs src <> Running -> do_sign f2 key tbs src = do_sign f1 key tbs src.
Proof. exact sign_mono. Qed.
Print Assumptions C42_stable.
(** A nonce that gives infinity, such as 0, ends signing with failure instead of being drawn
    again. *)
Theorem C42_zero_nonce : forall fuel g d Q tbs src, g_order g <> 0 -> 1 < c_p (g_curve g) -> src 0%nat = Some 0 ->
  do_sign (S fuel) (ECKEY (Some (Binary g)) (Some d) Q) tbs src = Failed.
Proof. exact zero_nonce. Qed.
Print Assumptions C42_zero_nonce.
Example C42_ex : do_sign 50 toy_key [32] (fun i => Some (1 + N.of_nat i mod 16)) = Running /\
  (exists g, group_from_nid 1160 = Some g /\ pmul (g_curve g) 1 (g_gen g) <> None) /\ field_of_digest 5 [33] <> 0.
Proof.
  split; [vm_compute; reflexivity|]. split; [|vm_compute; discriminate]. destruct (bad_std 1160 ltac:(lia)) as [g [E [W _]]]. exists g. split; [exact E|].
  destruct W as [_ [_ [[x [y [-> _]]] _]]]. discriminate.
Qed.

(** C44: the field element of a digest. *)
Theorem C44_hash_to_field : forall digest m, digest <> [] -> 0 < m ->
  hash_to_field digest m = Some (if le_val digest =? 0 then 1 else le_val digest mod 2 ^ m).
Proof. exact hash_ok. Qed.
Print Assumptions C44_hash_to_field.
Theorem C44_empty : forall m, hash_to_field [] m = None.
Proof. exact hash_empty. Qed.
Print Assumptions C44_empty.
Example C44_ex : hash_to_field [0x21; 1] 8 = Some 0x21 /\ hash_to_field [0; 0] 163 = Some 1 /\ hash_to_field [0; 1] 8 = Some 0 /\ hash_to_field [1; 2; 3] 163 = Some 0x30201.
Proof. vm_compute. repeat split. Qed.
