(** Exact forms of properties that do not hold in general. *)
From Coq Require Import Lia ZArith.
From Verif Require Import Base Model_Gost89 Spec_Gost89 Spec_Exact Model_Gf2m Model_Compress Model_Ec Model_Curves Model_Sign Spec_Gf2m Spec_Compress Spec_Curves Spec_Sign Proof_Exact.

(** C07 holds exactly for the lengths and MACs that [lucky_length] says: in particular not for 2
    to 7 bits more than whole bytes unless these bits are 0. *)
Theorem C07_mac_bits_exact_refuted : forall buffer nbits, bytesn 8 buffer -> (nbits <= 64)%nat ->
  (get_mac buffer (Z.of_nat nbits) = Some (mac_prefix_bits buffer nbits) <-> lucky_length buffer nbits).
Proof. exact mac_exact. Qed.
Print Assumptions C07_mac_bits_exact_refuted.
Example C07_exact_ex : bytesn 8 [1;2;3;4;5;6;7;8] /\ ~ lucky_length [1;2;3;4;5;6;7;8] 34 /\ lucky_length [1;2;3;4;5;6;7;8] 32 /\ lucky_length [1;2;3;4;4;6;7;8] 34 /\
  lucky_length [1;2;3;4;5;6;7;8] 1 /\ ~ lucky_length [1;2;3;4;5;6;7;8] 9.
Proof.
  split; [split; [repeat (apply Forall_cons; [vm_compute; reflexivity|]); apply Forall_nil|reflexivity]|].
  unfold lucky_length. cbn -[N.pow N.modulo]. repeat split.
  - intros [H|[[H _]|[_ H]]]; vm_compute in H; discriminate.
  - left. reflexivity.
  - right. right. split; [lia|reflexivity].
  - right. left. lia.
  - intros [H|[[_ H]|[H _]]]; vm_compute in H; [discriminate|exact (H eq_refl)|exact (H eq_refl)].
Qed.

(** C37 fails even of points that the order annihilates, as it does every public key. *)
Theorem C37_annihilated_refuted : forall nid, nid = 1160%Z \/ nid = 1168%Z -> exists g y, group_from_nid nid = Some g /\ on_curve (g_curve g) 1 y /\
  pmul (g_curve g) (g_order g) (Some (1, y)) = None /\ forall len, field_size (g_curve g) <= len -> compress (g_curve g) (Some (1, y)) len = None.
Proof. exact fails_annihilated. Qed.
Print Assumptions C37_annihilated_refuted.

(** C42: with a source that draws every nonce some time, signing returns for exactly the digests
    whose field element is not 0. *)
Theorem C42_exact_refuted : forall nid g d Q tbs src, group_from_nid nid = Some g -> tbs <> [] ->
  (forall i, exists e, src i = Some e /\ 1 <= e < g_order g) -> (forall e, 1 <= e < g_order g -> exists i, src i = Some e) ->
  ((exists fuel, do_sign fuel (ECKEY (Some (Binary g)) (Some d) Q) tbs src <> Running) <-> field_of_digest (degree (c_p (g_curve g))) tbs <> 0).
Proof. exact returns_iff. Qed.
Print Assumptions C42_exact_refuted.
(** There are such sources, and digests of both kinds. *)
Example C42_exact_ex : (exists g, group_from_nid 1160 = Some g /\ degree (c_p (g_curve g)) = 163 /\
    let src := fun i => Some (1 + N.of_nat i mod (g_order g - 1)) in
    (forall i, exists e, src i = Some e /\ 1 <= e < g_order g) /\ (forall e, 1 <= e < g_order g -> exists i, src i = Some e)) /\
  field_of_digest 163 (zeros 31 ++ [128]) = 0 /\ field_of_digest 163 (zeros 32) = 1.
Proof.
  split; [|split; vm_compute; reflexivity]. destruct (group_from_nid 1160) as [g|] eqn:E; [|vm_compute in E; discriminate].
  exists g. split; [reflexivity|]. split; [vm_compute in E; injection E as <-; vm_compute; reflexivity|].
  assert (Hn : 1 < g_order g) by (vm_compute in E; injection E as <-; vm_compute; reflexivity). clear E. destruct g as [c G n h]. cbn [g_order] in *. split.
  - intros i. eexists. split; [reflexivity|]. pose proof (N.mod_upper_bound (N.of_nat i) (n - 1) ltac:(lia)). lia.
  - intros e He. exists (N.to_nat (e - 1)). rewrite N2Nat.id, N.mod_small by lia. f_equal. lia.
Qed.
