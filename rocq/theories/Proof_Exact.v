(** Exact forms of some refuted properties. *)
From Coq Require Import Lia ZArith.
From Verif Require Import Base Lib Model_Gost89 Spec_Gost89 Spec_Exact Proof_Gost89Modes.
From Verif Require Import Model_Gf2m Model_Compress Model_Ec Model_Curves Model_Sign Spec_Gf2m Spec_Compress Spec_Curves Spec_Sign
  Proof_Gf2 Proof_Field Proof_Compress Proof_Compress2 Proof_Ec Proof_Ec2 Proof_Hex Proof_Order Proof_Cert5 Proof_Curves Proof_Curves2 Proof_Curves3 Proof_Curves4 Proof_Key3 Proof_Sign Proof_Sign2 Proof_Life.

Lemma mac_exact buffer nbits : bytesn 8 buffer -> (nbits <= 64)%nat ->
  (get_mac buffer (Z.of_nat nbits) = Some (mac_prefix_bits buffer nbits) <-> lucky_length buffer nbits).
Proof.
  intros Hb Hn. rewrite get_mac_actual_ok by assumption. unfold get_mac_actual, mac_prefix_bits, lucky_length. cbv zeta.
  set (l := nth (nbits / 8) buffer 0). set (pre := firstn (nbits / 8) buffer). clearbody l pre.
  pose proof (Nat.mod_upper_bound nbits 8 ltac:(lia)) as Hr. set (r := (nbits mod 8)%nat) in *. clearbody r.
  destruct r as [|[|r]].
  - cbn [Nat.eqb]. split; [left; reflexivity|reflexivity].
  - cbn [Nat.eqb]. change (2 ^ N.of_nat 1) with 2. split.
    + intros H. injection H as H. apply app_inv_head in H. injection H as H. right. left. split; [reflexivity|]. pose proof (N.mod_upper_bound l 2 ltac:(lia)). lia.
    + intros [H|[[_ H]|[H _]]]; [lia| |lia]. rewrite N.mod_small by lia. reflexivity.
  - cbn [Nat.eqb]. set (m := 2 ^ N.of_nat (S (S r))). clearbody m. split.
    + intros H. injection H as H. apply app_inv_head in H. injection H as H. right. right. split; [lia|congruence].
    + intros [H|[[H _]|[_ H]]]; [lia|lia|]. rewrite H. reflexivity.
Qed.

Lemma fails_annihilated nid : nid = 1160%Z \/ nid = 1168%Z -> exists g y, group_from_nid nid = Some g /\ on_curve (g_curve g) 1 y /\
  pmul (g_curve g) (g_order g) (Some (1, y)) = None /\ forall len, field_size (g_curve g) <= len -> compress (g_curve g) (Some (1, y)) len = None.
Proof.
  intros [-> | ->]; rewrite from_nid.
  - exists g163, bad163. destruct bad163_ok as [A [B C]]. split; [reflexivity|]. split; [exact A|]. split; [exact B|].
    intros len Hl. apply compress_fails_iff; [apply good163|exact A|exact Hl|]. split; [reflexivity|exact C].
  - exists g367, bad367. destruct bad367_ok as [A [B C]]. split; [reflexivity|]. split; [exact A|]. split; [exact B|].
    intros len Hl. apply compress_fails_iff; [apply good367|exact A|exact Hl|]. split; [reflexivity|exact C].
Qed.

(** On the standard curves the nonces below the order have finite multiples. *)
Lemma never_all nid g d Q tbs src fuel : group_from_nid nid = Some g -> tbs <> [] -> field_of_digest (degree (c_p (g_curve g))) tbs = 0 ->
  (forall i, exists e, src i = Some e /\ 1 <= e < g_order g) -> do_sign fuel (ECKEY (Some (Binary g)) (Some d) Q) tbs src = Running.
Proof.
  intros Hg Ht Hf Hs. destruct (nid_facts nid g Hg) as [W _]. apply sign_never; [apply wf_p; exact W|apply wf_n; exact W|exact Ht|exact Hf|].
  intros i. destruct (Hs i) as [e [E R]]. exists e. split; [exact E|]. intros Z. apply (gen_order nid g e Hg) in Z. apply N.divide_pos_le in Z; lia.
Qed.
(** So signing a digest ends for some source of nonces that draws every number, iff its field element is not 0. *)
Lemma returns_iff nid g d Q tbs src : group_from_nid nid = Some g -> tbs <> [] ->
  (forall i, exists e, src i = Some e /\ 1 <= e < g_order g) -> (forall e, 1 <= e < g_order g -> exists i, src i = Some e) ->
  ((exists fuel, do_sign fuel (ECKEY (Some (Binary g)) (Some d) Q) tbs src <> Running) <-> field_of_digest (degree (c_p (g_curve g))) tbs <> 0).
Proof.
  intros Hg Ht Hs Ha. split.
  - intros [fuel H] E. apply H. apply (never_all nid); assumption.
  - intros H. apply (std_returns nid); assumption.
Qed.
