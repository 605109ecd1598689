(** Public keys of two standard curves that cannot be encoded. *)
From Coq Require Import Lia ZArith.
From Verif Require Import Base Lib Model_Gf2m Model_Compress Model_Ec Model_Curves Model_Sign Model_Pmeth Model_Key Model_Ameth Spec_Gf2m Spec_Compress Spec_Curves Spec_Pmeth.
From Verif Require Import Proof_Gf2 Proof_Hex Proof_Order Proof_Cert5 Proof_Curves Proof_Curves2 Proof_Curves3 Proof_Curves4.

Lemma bad163_ok : on_curve (g_curve g163) 1 bad163 /\ pmul (g_curve g163) (g_order g163) (Some (1, bad163)) = None /\ trace_of (c_p (g_curve g163)) bad163 = 0.
Proof.
  assert (E : 0x800000000000000000000000000000000000000c9 = N.shiftl 1 163 ⊕ 0xc9) by (vm_compute; reflexivity).
  assert (W : well_formed (GROUP (g_curve g163) (Some (1, bad163)) (g_order g163) 1)).
  { unfold g163. cbn [g_curve g_order]. rewrite E. eapply curve_check_ok; [|exact bad_order163|vm_compute; reflexivity|vm_compute; reflexivity]. vm_compute. reflexivity. }
  destruct W as [_ [_ [[x [y [Eg [OC _]]]] [_ [_ Nn]]]]]. cbn [g_curve g_gen g_order] in *. injection Eg as <- <-. split; [exact OC|]. split; [exact Nn|].
  unfold g163. cbn [g_curve c_p]. rewrite E. apply (trace_fast 163 0xc9 41%nat (ofN 0x192)). vm_compute. reflexivity.
Qed.
Lemma bad367_ok : on_curve (g_curve g367) 1 bad367 /\ pmul (g_curve g367) (g_order g367) (Some (1, bad367)) = None /\ trace_of (c_p (g_curve g367)) bad367 = 0.
Proof.
  assert (E : c_p (g_curve g367) = N.shiftl 1 367 ⊕ 0x200001) by (vm_compute; reflexivity).
  assert (W : well_formed (GROUP (g_curve g367) (Some (1, bad367)) (g_order g367) 1)).
  { unfold g367 in E |- *. cbn [g_curve g_order c_p] in E |- *. rewrite E. eapply curve_check_ok; [|exact bad_order367|vm_compute; reflexivity|vm_compute; reflexivity]. vm_compute. reflexivity. }
  destruct W as [_ [_ [[x [y [Eg [OC _]]]] [_ [_ Nn]]]]]. cbn [g_curve g_gen g_order] in *. injection Eg as <- <-. split; [exact OC|]. split; [exact Nn|].
  rewrite E. apply (trace_fast 367 0x200001 92%nat (ofN 0x400002)). vm_compute. reflexivity.
Qed.
Lemma unencodable t d sb nid : nid = 1160%Z \/ nid = 1168%Z -> exists g y, group_from_nid nid = Some g /\ on_curve (g_curve g) 1 y /\ pmul (g_curve g) (g_order g) (Some (1, y)) = None /\
  forall pub, pub_encode (key_of t g d (Some (1, y)) sb) <> Ok pub.
Proof.
  assert (X : forall g y, dstu_curve (g_curve g) -> on_curve (g_curve g) 1 y -> trace_of (c_p (g_curve g)) y = 0 -> forall pub, pub_encode (key_of t g d (Some (1, y)) sb) <> Ok pub).
  { intros g y D OC T pub. unfold pub_encode, key_of. cbn [pk_type pk_key dk_ec ek_group ek_pub]. destruct (negb _); [discriminate|]. destruct (param_encode _) as [| |prm]; try discriminate. cbn [bind]. cbv zeta. destruct (field_size _ =? 0); [discriminate|].
    rewrite (proj2 (compress_fails_iff _ 1 y (field_size (g_curve g)) D OC ltac:(lia))); [discriminate|]. split; [reflexivity|exact T]. }
  intros [-> | ->]; rewrite from_nid.
  - exists g163, bad163. destruct bad163_ok as [A [B C]]. split; [reflexivity|]. split; [exact A|]. split; [exact B|]. apply X; [apply good163|exact A|exact C].
  - exists g367, bad367. destruct bad367_ok as [A [B C]]. split; [reflexivity|]. split; [exact A|]. split; [exact B|]. apply X; [apply good367|exact A|exact C].
Qed.
