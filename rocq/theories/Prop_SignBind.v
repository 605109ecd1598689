(** Properties C115 and C116: what a signature says about the digest, and about the key. *)
From Coq Require Import Lia ZArith Znumtheory.
From Verif Require Import Base Lib Model_Gf2m Model_Compress Model_Ec Model_Curves Model_Sign Spec_Gf2m Spec_Compress Spec_Curves Spec_Sign Spec_Toy
  Proof_Toy Proof_SignBind Prop_Sign.

(** C115, what holds: one signature is accepted, under one public key, for few digests only:
    the bits by which the field is larger than the integers r is taken from. *)
Theorem C115_few_digests : forall g d Q sig ds, well_formed g -> curve_point (g_curve g) Q ->
  Forall (fun t => do_verify (ECKEY (Some (Binary g)) d (Some Q)) t sig = true) ds ->
  NoDup (map (field_of_digest (degree (c_p (g_curve g)))) ds) ->
  N.of_nat (length ds) <= 2 ^ (degree (c_p (g_curve g)) - (N.size (g_order g) - 1)).
Proof. exact few. Qed.
Print Assumptions C115_few_digests.
(** On the four standard curves of degree 257 and more: at most four digests of 32 bytes
    (zeros apart) per signature and key. *)
Theorem C115_large_curves : forall nid g d Q sig ds, group_from_nid nid = Some g -> (1166 <= nid)%Z -> curve_point (g_curve g) Q ->
  Forall (bytesn 32) ds -> NoDup ds -> ~ In (zeros 32) ds ->
  Forall (fun t => do_verify (ECKEY (Some (Binary g)) d (Some Q)) t sig = true) ds -> (length ds <= 4)%nat.
Proof. exact std_few. Qed.
Print Assumptions C115_large_curves.
(** A digest whose field element is 0 has no accepted signature at all. *)
Theorem C115_zero_never : forall g d Q t sig, 1 < c_p (g_curve g) -> g_order g <> 0 -> field_of_digest (degree (c_p (g_curve g))) t = 0 ->
  do_verify (ECKEY (Some (Binary g)) d (Some Q)) t sig = false.
Proof. exact zero_field. Qed.
Print Assumptions C115_zero_never.

(** What does not hold: on the six standard curves of degree up to 233 every digest of 32
    bytes has another one for which the same signatures are made and accepted, whatever the
    key ... *)
Theorem C115_small_curves_refuted : forall nid g t, (nid <= 1165)%Z -> group_from_nid nid = Some g -> bytesn 32 t ->
  exists t', bytesn 32 t' /\ t' <> t /\ forall d Q,
    (forall sig, do_verify (ECKEY (Some (Binary g)) d Q) t' sig = do_verify (ECKEY (Some (Binary g)) d Q) t sig) /\
    forall fuel src, do_sign fuel (ECKEY (Some (Binary g)) d Q) t' src = do_sign fuel (ECKEY (Some (Binary g)) d Q) t src.
Proof. exact short_curves. Qed.
Print Assumptions C115_small_curves_refuted.
(** ... and on all of them the digest of zeros stands for the digest 1, ... *)
Theorem C115_zero_is_one_refuted : forall nid g d Q sig, group_from_nid nid = Some g ->
  do_verify (ECKEY (Some (Binary g)) d Q) (1 :: zeros 31) sig = do_verify (ECKEY (Some (Binary g)) d Q) (zeros 32) sig.
Proof. exact one_is_zero. Qed.
Print Assumptions C115_zero_is_one_refuted.
(** ... which, for fields of 256 bits and more, is the only case of two 32 byte digests with
    one field element. *)
Theorem C115_large_fields : forall m t t', 256 <= m -> bytesn 32 t -> bytesn 32 t' -> field_of_digest m t = field_of_digest m t' ->
  t = t' \/ (le_val t <= 1 /\ le_val t' <= 1).
Proof. exact long_field. Qed.
Print Assumptions C115_large_fields.

(** On the curve of 5 bits the bound is met: this signature is accepted for 11 and for 12. *)
Example C115_ex : let v := do_verify (ECKEY (Some (Binary toy_group)) None (Some (Some (21, 17)))) in
  curve_point toy (Some (21, 17)) /\ degree 37 - (N.size 17 - 1) = 1 /\
  filter (fun t => v [t] [12; 12]) (map N.of_nat (seq 0 64)) = [11; 12; 11 + 32; 12 + 32] /\ v [32] [12; 12] = false.
Proof. split; [apply toy_on; vm_compute; reflexivity|]. vm_compute. repeat split. Qed.
Example C115_ex_std : exists g, group_from_nid 1166 = Some g /\ exists g', group_from_nid 1160 = Some g'.
Proof.
  destruct (group_from_nid 1166) as [g|] eqn:E; [|vm_compute in E; discriminate]. exists g. split; [reflexivity|].
  destruct (group_from_nid 1160) as [g'|] eqn:E'; [|vm_compute in E'; discriminate]. exists g'. reflexivity.
Qed.

(** C116: two signatures of one key made with the same nonce, with different halves r, give
    the private key: it is the one solution of a linear equation of the four numbers. *)
Theorem C116_same_nonce : forall f1 f2 g d Q t1 t2 e sig1 sig2 d',
  well_formed g -> prime (Z.of_N (g_order g)) -> d < g_order g -> d' < g_order g -> e < g_order g ->
  let key := ECKEY (Some (Binary g)) (Some d) Q in let n := g_order g in
  do_sign f1 key t1 (fun _ => Some e) = Done sig1 -> do_sign f2 key t2 (fun _ => Some e) = Done sig2 ->
  let size := N.to_nat (num_bytes n) in
  let s1 := be_val (firstn size sig1) in let r1 := be_val (skipn size sig1) in
  let s2 := be_val (firstn size sig2) in let r2 := be_val (skipn size sig2) in
  r1 <> r2 -> ((s1 + d' * r2) mod n = (s2 + d' * r1) mod n <-> d' = d).
Proof. exact sign_one_nonce. Qed.
Print Assumptions C116_same_nonce.
(** So does one signature whose nonce is known. *)
Theorem C116_known_nonce : forall fuel g d Q t src sig, well_formed g -> prime (Z.of_N (g_order g)) -> d < g_order g -> ranged (g_order g) src ->
  let key := ECKEY (Some (Binary g)) (Some d) Q in let n := g_order g in
  do_sign fuel key t src = Done sig ->
  let size := N.to_nat (num_bytes n) in
  let s := be_val (firstn size sig) in let r := be_val (skipn size sig) in
  exists k e, src k = Some e /\ forall d', d' < n -> (s = (e + d' * r) mod n <-> d' = d).
Proof. exact sign_known_nonce. Qed.
Print Assumptions C116_known_nonce.
(** Who has the private key can turn an accepted signature of a digest into another one (and
    who sees both knows 2 d r): signatures are not unique. *)
Theorem C116_second_signature : forall g d Q t sig, well_formed g -> key_pair g d Q ->
  do_verify (ECKEY (Some (Binary g)) None (Some Q)) t sig = true ->
  let n := g_order g in let size := N.to_nat (num_bytes n) in let half := (length sig / 2)%nat in
  let s := be_val (firstn half sig) in let r := be_val (firstn half (skipn half sig)) in
  let s' := (2 * d * r + (n - s)) mod n in
  s' <> 0 -> do_verify (ECKEY (Some (Binary g)) None (Some Q)) t (be_bytes size s' ++ be_bytes size r) = true.
Proof. exact second_accepted. Qed.
Print Assumptions C116_second_signature.
Example C116_ex : prime 17 /\ do_sign 1 toy_key [11] (fun _ => Some 3) = Done [12; 12] /\ do_sign 1 toy_key [13] (fun _ => Some 3) = Done [13; 2] /\
  filter (fun d' => (12 + d' * 2) mod 17 =? (13 + d' * 12) mod 17) (map N.of_nat (seq 0 17)) = [5] /\
  (2 * 5 * 12 + (17 - 12)) mod 17 = 6 /\
  do_verify (ECKEY (Some (Binary toy_group)) None (Some (Some (21, 17)))) [11] [6; 12] = true.
Proof.
  split; [|vm_compute; repeat split]. apply prime_intro; [lia|]. intros k Hk. apply Zgcd_1_rel_prime.
  assert (H : forallb (fun i => Z.gcd (Z.of_nat i) 17 =? 1)%Z (seq 1 16) = true) by reflexivity.
  rewrite forallb_forall in H. specialize (H (Z.to_nat k)). rewrite Z2Nat.id in H by lia. apply Z.eqb_eq, H, in_seq. lia.
Qed.
