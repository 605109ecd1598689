(** The ten standard curves are well-formed. *)
From Coq Require Import Lia ZArith Ring Setoid Morphisms.
From Verif Require Import Base Lib Model_Gf2m Model_Compress Model_Ec Model_Curves Spec_Gf2m Spec_Compress Spec_Curves.
From Verif Require Import Proof_Gf2 Proof_Field Proof_Irr Proof_Compress Proof_Compress2 Proof_Hex Proof_Ec Proof_Ec2 Proof_Order Proof_Cert1 Proof_Cert2 Proof_Cert3 Proof_Cert4.

Section Fast.
Variables m low : N.
Variable nd : nat.
Variable lowK : hx.
Let p := N.shiftl 1 m ⊕ low.
Notation red := (red nd lowK).
Fixpoint hsqrs (n : nat) (x : hx) : hx := match n with O => x | S k => hsqrs k (red (hsqr x)) end.
Fixpoint htrace (n : nat) (x : hx) : hx := match n with O => Hexadecimal.Nil | S k => hxor x (htrace k (red (hsqr x))) end.
Definition curve_check (a b gx gy : N) : bool :=
  (1 <? p) && (degree p =? m) && negb (pmod p 2 =? 0) && negb (pmod p 3 =? 0) && N.odd m &&
  (N.shiftl 1 (4 * N.of_nat nd - m) ⊗ low =? val lowK) && (m <=? 4 * N.of_nat nd) &&
  forallb (fun d => N.gcd (N.of_nat d) m =? 1) (seq 1 (N.to_nat m - 1)) &&
  iszero m low nd lowK (hxor (hsqrs (N.to_nat m) (ofN 2)) (ofN 2)) &&
  ((a =? 0) || (a =? 1)) && (N.size b <=? m) && negb (b =? 0) && (N.size gx <=? m) && (N.size gy <=? m) &&
  iszero m low nd lowK (htrace (N.to_nat m) (ofN (gx ⊕ a))) &&
  (let x := ofN gx in let y := ofN gy in
   iszero m low nd lowK (hxor (hmul (hxor (red (hmul (hxor x (ofN a)) x)) y) x) (hxor (hsqr y) (ofN b)))).
Hypothesis Hp : 1 < p.
Hypothesis Hm : degree p = m.
Hypothesis HlowK : N.shiftl 1 (4 * N.of_nat nd - m) ⊗ low = val lowK.
Hypothesis Hnd : m <= 4 * N.of_nat nd.
Notation "u ≡ v" := (eqm p u v) (at level 70).
#[local] Instance k1 : Equivalence (eqm p) := eqm_equiv p.
#[local] Instance k2 : Proper (eqm p ==> eqm p ==> eqm p) N.lxor := lxor_eqm p.
#[local] Instance k3 : Proper (eqm p ==> eqm p ==> eqm p) clmul := clmul_eqm p Hp.
Add Ring Rp7 : (Rp_theory p) (morphism (Rp_morph p), setoid (eqm_equiv p) (Rp_ext p Hp)).
Lemma red_eqm x : val (red x) ≡ val x.
Proof. apply (red_ok m low nd lowK 1); try assumption. discriminate. Qed.
Lemma zero_eqm x : iszero m low nd lowK x = true -> val x ≡ 0.
Proof. apply (iszero_ok m low nd lowK 1); try assumption. discriminate. Qed.
Lemma hsqrs_ok n : forall x, val (hsqrs n x) ≡ frob n (val x).
Proof.
  induction n as [|n IH]; intros x; cbn [hsqrs]; [rewrite (frob_0 p Hp); reflexivity|].
  rewrite IH, (frob_S' p Hp). apply frob_eqm; [exact Hp|]. rewrite red_eqm, val_sqr. reflexivity.
Qed.
Lemma htrace_ok n : forall x, val (htrace n x) ≡ tr n (val x).
Proof.
  induction n as [|n IH]; intros x; cbn [htrace tr]; [reflexivity|]. rewrite val_xor, IH.
  assert (E : tr n (val (red (hsqr x))) ≡ tr n (val x ⊗ val x)) by (apply tr_eqm; [exact Hp|]; rewrite red_eqm, val_sqr; reflexivity).
  rewrite E, (tr_sq p Hp). ring.
Qed.
Lemma on_check a b gx gy : iszero m low nd lowK (hxor (hmul (hxor (red (hmul (hxor (ofN gx) (ofN a)) (ofN gx))) (ofN gy)) (ofN gx)) (hxor (hsqr (ofN gy)) (ofN b))) = true ->
  curve_eq p a b gx gy.
Proof.
  intros C. apply zero_eqm in C. repeat first [rewrite val_xor in C|rewrite val_mul in C|rewrite val_sqr in C|rewrite val_ofN in C].
  assert (R : val (red (hmul (hxor (ofN gx) (ofN a)) (ofN gx))) ≡ (gx ⊕ a) ⊗ gx) by (rewrite red_eqm, val_mul, val_xor, !val_ofN; reflexivity).
  rewrite R in C. unfold curve_eq. apply (comb1 p Hp _ _ 1 _ _ C). ring.
Qed.
End Fast.

Lemma curve_check_ok m low nd lowK a b gx gy L0 l n h : let p := N.shiftl 1 m ⊕ low in
  curve_check m low nd lowK a b gx gy = true -> order_check m low a nd lowK gx gy L0 l n = true -> 1 < n -> N.odd n = true ->
  well_formed (GROUP (CURVE p a b) (Some (gx, gy)) n h).
Proof.
  intros p C O H1 Hodd. unfold curve_check in C. rewrite !andb_true_iff in C. fold p in C.
  destruct C as [[[[[[[[[[[[[[[C1 C2] C3] C4] C5] C6] C7] C8] C9] C10] C11] C12] C13] C14] C15] C16].
  assert (Hp : 1 < p) by lia. assert (Hm : degree p = m) by lia. apply N.eqb_eq in C6. assert (Hnd : m <= 4 * N.of_nat nd) by lia.
  assert (Z : forall x, iszero m low nd lowK x = true -> eqm p (val x) 0) by (intros x; apply zero_eqm; assumption).
  pose proof (eqm_equiv p) as K1. pose proof (lxor_eqm p) as K2. pose proof (clmul_eqm p Hp) as K3.
  assert (Hirr : irreducible p).
  { apply irreducible_cert; [exact Hp|lia|lia| |].
    - intros d Hd. rewrite Hm in *. rewrite forallb_forall in C8. specialize (C8 (N.to_nat d) ltac:(apply in_seq; lia)). rewrite N2Nat.id in C8. lia.
    - unfold deg. rewrite Hm. apply Z in C9. rewrite val_xor, val_ofN in C9. apply (eq_of p Hp) in C9.
      etransitivity; [|exact C9]. symmetry. unfold p. etransitivity; [apply hsqrs_ok; assumption|]. rewrite val_ofN. reflexivity. }
  assert (Sz : forall x, (N.size x <=? m) = true -> elem p x).
  { intros x Hx. unfold elem. rewrite Hm. destruct (N.eq_dec x 0) as [-> |H0]; [apply N.neq_0_lt_0, N.pow_nonzero; lia|].
    rewrite N.size_log2 in Hx by exact H0. apply N.log2_lt_pow2; lia. }
  assert (Ha : a = 0 \/ a = 1) by (apply orb_true_iff in C10; lia).
  assert (Ea : elem p a) by (destruct Ha as [-> | ->]; [apply elem_0|apply elem_1]; exact Hp).
  assert (Eb : elem p b) by (apply Sz; exact C11). assert (Hb0 : b <> 0) by lia.
  assert (G : pt p a b (Some (gx, gy))).
  { split; [apply Sz; exact C13|]. split; [apply Sz; exact C14|]. unfold p. apply (on_check m low nd lowK); assumption. }
  split; [|split; [|split; [|split; [|split]]]]; cbn [g_curve g_gen g_order c_b].
  - split; [exact Hirr|]. cbn [c_p c_a c_b]. rewrite Hm. split; [exact C5|]. split; assumption.
  - exact Hb0.
  - exists gx, gy. split; [reflexivity|]. split; [apply (proj1 (pt_on p a b Hp Eb (Some (gx, gy)))); exact G|].
    apply (trx_compressible p a b Hp Ea gx gy G). cbn [trx]. apply Z in C15. unfold p in C15. fold p in C15.
    assert (C17 : eqm p (tr (N.to_nat m) (gx ⊕ a)) 0) by (etransitivity; [|exact C15]; symmetry; rewrite <- (val_ofN (gx ⊕ a)) at 2; apply htrace_ok; assumption). unfold deg. rewrite Hm. apply (eq_of p Hp). rewrite <- (tr_add p Hp). exact C17.
  - exact H1.
  - exact Hodd.
  - exact (order_check_ok m low a nd lowK b gx gy L0 l n Hp Hm Hirr Ea Eb Hb0 G O).
Qed.

Ltac curve_tac o := apply (curve_check_ok _ _ _ _ _ _ _ _ _ _ _ _) with (2 := o); [vm_compute; reflexivity|vm_compute; reflexivity|vm_compute; reflexivity].
