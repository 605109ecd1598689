(** Properties C117 and C118: whether a signature needs the private key, and whether it names
    its signer. *)
From Coq Require Import Lia ZArith Znumtheory.
From Verif Require Import Base Lib Model_Gf2m Model_Compress Model_Ec Model_Curves Model_Sign Spec_Gf2m Spec_Compress Spec_Curves Spec_Sign Spec_Toy
  Proof_Toy Proof_SignBind Proof_Forge Prop_Sign.

(** C117, what does not hold: on every standard curve and for every public key, each pair of
    numbers s and r (r of one bit less than the order), but for one s for each r, is an accepted
    signature of some digest.  The digest is computed from the public key: the private one is
    not needed.  It has any length k that holds a field element: 32 bytes will do on the curves
    of degree up to 233, and the functions take digests of any length. *)
Theorem C117_forgery_refuted : forall nid g d Q s r k, group_from_nid nid = Some g -> degree (c_p (g_curve g)) <= 8 * N.of_nat k -> key_pair g d Q ->
  1 <= s < g_order g -> 1 <= r -> r < 2 ^ (N.size (g_order g) - 1) -> s <> (d * r) mod g_order g ->
  exists digest, bytesn k digest /\ forall d0,
    do_verify (ECKEY (Some (Binary g)) d0 (Some Q)) digest
      (be_bytes (N.to_nat (num_bytes (g_order g))) s ++ be_bytes (N.to_nat (num_bytes (g_order g))) r) = true.
Proof. exact forge_std. Qed.
Print Assumptions C117_forgery_refuted.
(** The same for any group and any public key on the curve. *)
Theorem C117_forgery_general_refuted : forall g Q s r x y k, degree (c_p (g_curve g)) <= 8 * N.of_nat k -> well_formed g -> curve_point (g_curve g) Q ->
  1 <= s < g_order g -> 1 <= r -> r < 2 ^ (N.size (g_order g) - 1) -> elem (c_p (g_curve g)) r ->
  padd (g_curve g) (pmul (g_curve g) s (g_gen g)) (pmul (g_curve g) r Q) = Some (x, y) -> x <> 0 ->
  exists digest, bytesn k digest /\ digest <> [] /\ valid_signature g Q digest s r.
Proof. exact forge_valid. Qed.
Print Assumptions C117_forgery_general_refuted.
(** What holds: who has an accepted signature and the multiplier e of its point, as a signer
    has it, has the private key: it is the one solution of s = e + d r. *)
Theorem C117_signer_knows_key : forall g d Q t sig e, well_formed g -> prime (Z.of_N (g_order g)) -> key_pair g d Q -> d < g_order g ->
  do_verify (ECKEY (Some (Binary g)) None (Some Q)) t sig = true ->
  let n := g_order g in let half := (length sig / 2)%nat in
  let s := be_val (firstn half sig) in let r := be_val (firstn half (skipn half sig)) in
  padd (g_curve g) (pmul (g_curve g) s (g_gen g)) (pmul (g_curve g) r Q) = pmul (g_curve g) e (g_gen g) ->
  forall d', d' < n -> (s = (e + d' * r) mod n <-> d' = d).
Proof. exact knows. Qed.
Print Assumptions C117_signer_knows_key.
(** On the curve of 5 bits: s = 4 and r = 9 sign the digest 12 for the public key (21, 17),
    whose private key is 5. *)
Lemma prime17 : prime 17.
Proof.
  apply prime_intro; [lia|]. intros k Hk. apply Zgcd_1_rel_prime.
  assert (H : forallb (fun i => Z.gcd (Z.of_nat i) 17 =? 1)%Z (seq 1 16) = true) by reflexivity.
  rewrite forallb_forall in H. specialize (H (Z.to_nat k)). rewrite Z2Nat.id in H by lia. apply Z.eqb_eq, H, in_seq. lia.
Qed.
Example C117_ex : well_formed toy_group /\ curve_point toy (Some (21, 17)) /\ elem 37 9 /\ prime 17 /\ key_pair toy_group 5 (Some (21, 17)) /\
  9 < 2 ^ (N.size 17 - 1) /\ 4 <> (5 * 9) mod 17 /\
  padd toy (pmul toy 4 (Some (3, 25))) (pmul toy 9 (Some (21, 17))) = Some (26, 11) /\ pmul toy 10 (Some (3, 25)) = Some (26, 11) /\
  filter (fun t => do_verify (ECKEY (Some (Binary toy_group)) None (Some (Some (21, 17)))) [t] [4; 9]) (map N.of_nat (seq 0 32)) = [12; 27] /\
  filter (fun d' => 4 =? (10 + d' * 9) mod 17) (map N.of_nat (seq 0 17)) = [5].
Proof.
  split; [exact toy_good|]. split; [apply toy_on; vm_compute; reflexivity|]. split; [vm_compute; reflexivity|]. split; [exact prime17|]. split; [vm_compute; reflexivity|].
  vm_compute. repeat split; discriminate.
Qed.

(** C118, what does not hold: every accepted signature is accepted under a second public key for
    the same digest.  It is computed from the signature and the first key, and who has the
    private key of the first has that of the second. *)
Theorem C118_twin_refuted : forall g Q t sig, well_formed g -> prime (Z.of_N (g_order g)) -> curve_point (g_curve g) Q -> pmul (g_curve g) (g_order g) Q = None ->
  do_verify (ECKEY (Some (Binary g)) None (Some Q)) t sig = true ->
  let n := g_order g in let half := (length sig / 2)%nat in
  let s := be_val (firstn half sig) in let r := be_val (firstn half (skipn half sig)) in
  exists w, w < n /\ (w * r) mod n = (2 * s) mod n /\
    let Q' := pneg (padd (g_curve g) (pmul (g_curve g) w (g_gen g)) Q) in
    Q' <> Q /\ curve_point (g_curve g) Q' /\ pmul (g_curve g) n Q' = None /\
    (forall d, d < n -> key_pair g d Q -> key_pair g (w + (n - d)) Q') /\
    do_verify (ECKEY (Some (Binary g)) None (Some Q')) t sig = true.
Proof. exact twin. Qed.
Print Assumptions C118_twin_refuted.
(** What holds: there are few such keys in the group, ... *)
Theorem C118_few_keys : forall g t sig Qs, well_formed g -> prime (Z.of_N (g_order g)) ->
  Forall (fun Q => curve_point (g_curve g) Q /\ pmul (g_curve g) (g_order g) Q = None) Qs ->
  Forall (fun Q => do_verify (ECKEY (Some (Binary g)) None (Some Q)) t sig = true) Qs -> NoDup Qs ->
  N.of_nat (length Qs) <= 2 * 2 ^ (degree (c_p (g_curve g)) - (N.size (g_order g) - 1)).
Proof. exact few_keys. Qed.
Print Assumptions C118_few_keys.
(** ... at most eight on the standard curves. *)
Theorem C118_standard_curves : forall nid g t sig Qs, group_from_nid nid = Some g ->
  Forall (fun Q => curve_point (g_curve g) Q /\ pmul (g_curve g) (g_order g) Q = None) Qs ->
  Forall (fun Q => do_verify (ECKEY (Some (Binary g)) None (Some Q)) t sig = true) Qs -> NoDup Qs -> (length Qs <= 8)%nat.
Proof. exact std_few_keys. Qed.
Print Assumptions C118_standard_curves.
(** On the curve of 5 bits the bound is met: this signature of the digest 11 is accepted under
    the keys 5, 7, 12 and 14; the second key of 5 is 14. *)
Example C118_ex : let key d := pneg (pmul toy d (Some (3, 25))) in
  filter (fun d => do_verify (ECKEY (Some (Binary toy_group)) None (Some (key d))) [11] [12; 12]) (map N.of_nat (seq 0 17)) = [5; 7; 12; 14] /\
  2 * 2 ^ (degree 37 - (N.size 17 - 1)) = 4 /\ (2 * 12) mod 17 = (2 * 12) mod 17 /\ (2 + (17 - 5)) mod 17 = 14 /\
  pneg (padd toy (pmul toy 2 (Some (3, 25))) (key 5)) = key 14 /\ curve_point toy (key 5) /\ pmul toy 17 (key 5) = None.
Proof.
  cbv zeta. do 5 (split; [vm_compute; reflexivity|]). split; [|vm_compute; reflexivity].
  change (pneg (pmul toy 5 (Some (3, 25)))) with (Some (21, 17)). apply toy_on. vm_compute. reflexivity.
Qed.
