From Coq Require Import ZArith Lia.
From Verif Require Import Base Model_Utils Model_Asn1 Model_Compress Model_Ec Model_Key Spec_Trunc.

Lemma get_low x y : same_low x y -> asn1_get x = asn1_get y.
Proof.
  intros (hx & hy & i & hi). unfold asn1_get.
  assert (hx' : ((- 2 ^ 63 <=? x) && (x <? 2 ^ 63))%Z = true) by (apply andb_true_intro; split; [apply Z.leb_le | apply Z.ltb_lt]; tauto).
  assert (hy' : ((- 2 ^ 63 <=? y) && (y <? 2 ^ 63))%Z = true) by (apply andb_true_intro; split; [apply Z.leb_le | apply Z.ltb_lt]; tauto).
  rewrite hx', hy', hi. replace (x + i * 2 ^ 32 + 2 ^ 31)%Z with (x + 2 ^ 31 + i * 2 ^ 32)%Z by ring.
  rewrite Z.mod_add by discriminate. reflexivity.
Qed.
Lemma poly_low f f' : same_field f f' -> poly_of_spec f = poly_of_spec f' /\ makePoly f = makePoly f'.
Proof.
  intros [hm hp]. unfold poly_of_spec, makePoly. rewrite (get_low _ _ hm).
  destruct (bf_poly f) as [k|k j l], (bf_poly f') as [k'|k' j' l']; try contradiction.
  - rewrite (get_low _ _ hp). split; reflexivity.
  - destruct hp as (hk & hj & hl). rewrite (get_low _ _ hk), (get_low _ _ hj), (get_low _ _ hl). split; reflexivity.
Qed.
Lemma key_low solve f f' a b n bp s le : same_field f f' ->
  key_from_asn1 solve (PARAMS (Custom (CUSTOM f a b n bp)) s) le = key_from_asn1 solve (PARAMS (Custom (CUSTOM f' a b n bp)) s) le.
Proof.
  intro hf. unfold key_from_asn1, group_from_asn1. cbn [ap_curve ap_sbox cu_field cu_a cu_b cu_n cu_bp].
  rewrite (proj1 (poly_low _ _ hf)). reflexivity.
Qed.
