(** On which standard curves compression can fail. *)
From Coq Require Import Lia ZArith Ring Setoid Morphisms.
From Verif Require Import Base Lib Model_Gf2m Model_Compress Model_Ec Model_Curves Spec_Gf2m Spec_Compress Spec_Curves.
From Verif Require Import Proof_Gf2 Proof_Field Proof_Irr Proof_Compress Proof_Compress2 Proof_Hex Proof_Ec Proof_Ec2 Proof_Order Proof_Curves Proof_Curves2 Proof_Curves3.

(** The trace of b by fast squaring. *)
Lemma trace_fast m low nd lowK x t : let p := N.shiftl 1 m ⊕ low in
  ((1 <? p) && (degree p =? m) && (N.shiftl 1 (4 * N.of_nat nd - m) ⊗ low =? val lowK) && (m <=? 4 * N.of_nat nd) && (N.size x <=? m) &&
   (t <=? 1) && iszero m low nd lowK (hxor (htrace nd lowK (N.to_nat m) (ofN x)) (ofN t))) = true -> trace_of p x = t.
Proof.
  intros p. rewrite !andb_true_iff. intros [[[[[[H1 H2] H3] H4] H5] H6] H7]. fold p in H1, H2.
  assert (Hp : 1 < p) by lia. assert (Hm : degree p = m) by lia. apply N.eqb_eq in H3. assert (Hnd : m <= 4 * N.of_nat nd) by lia.
  assert (Hx : elem p x).
  { unfold elem. rewrite Hm. destruct (N.eq_dec x 0) as [-> |H0]; [apply N.neq_0_lt_0, N.pow_nonzero; lia|].
    rewrite N.size_log2 in H5 by exact H0. apply N.log2_lt_pow2; lia. }
  assert (Ht : elem p t) by (destruct (N.eq_dec t 0) as [-> |]; [apply elem_0; exact Hp|]; replace t with 1 by lia; apply elem_1; exact Hp).
  destruct (trace_of_tr p Hp x Hx) as [E1 E2]. apply (elem_eq p Hp); [exact E2|exact Ht|]. pose proof (eqm_equiv p) as K1.
  etransitivity; [exact E1|].
  apply (zero_eqm m low nd lowK) in H7; [|assumption..]. fold p in H7. rewrite val_xor in H7. apply (eq_of p Hp) in H7. rewrite val_ofN in H7.
  etransitivity; [|exact H7]. symmetry. unfold deg. rewrite Hm. etransitivity; [apply (htrace_ok m low); assumption|]. rewrite val_ofN. reflexivity.
Qed.
Definition lowof (m p : N) : N := p ⊕ N.shiftl 1 m.
Lemma trace_std i : (i < 10)%nat -> trace_of (c_p (g_curve (std i))) (c_b (g_curve (std i))) = if (i =? 0)%nat || (i =? 8)%nat then 0 else 1.
Proof.
  assert (T : forall m p b t nd, p = N.shiftl 1 m ⊕ lowof m p -> 
    ((1 <? N.shiftl 1 m ⊕ lowof m p) && (degree (N.shiftl 1 m ⊕ lowof m p) =? m) && (N.shiftl 1 (4 * N.of_nat nd - m) ⊗ lowof m p =? val (ofN (N.shiftl (lowof m p) (4 * N.of_nat nd - m)))) && (m <=? 4 * N.of_nat nd) && (N.size b <=? m) &&
   (t <=? 1) && iszero m (lowof m p) nd (ofN (N.shiftl (lowof m p) (4 * N.of_nat nd - m))) (hxor (htrace nd (ofN (N.shiftl (lowof m p) (4 * N.of_nat nd - m))) (N.to_nat m) (ofN b)) (ofN t))) = true -> trace_of p b = t).
  { intros m p b t nd E H. rewrite E. exact (trace_fast m _ nd _ b t H). }
  intros H. destruct i as [|[|[|[|[|[|[|[|[|[|i]]]]]]]]]]; [..|lia]; unfold std; cbn [nth Nat.eqb orb].
  - apply (T 163 _ _ _ 41%nat); vm_compute; reflexivity.
  - apply (T 167 _ _ _ 42%nat); vm_compute; reflexivity.
  - apply (T 173 _ _ _ 44%nat); vm_compute; reflexivity.
  - apply (T 179 _ _ _ 45%nat); vm_compute; reflexivity.
  - apply (T 191 _ _ _ 48%nat); vm_compute; reflexivity.
  - apply (T 233 _ _ _ 59%nat); vm_compute; reflexivity.
  - apply (T 257 _ _ _ 65%nat); vm_compute; reflexivity.
  - apply (T 307 _ _ _ 77%nat); vm_compute; reflexivity.
  - apply (T 367 _ _ _ 92%nat); vm_compute; reflexivity.
  - apply (T 431 _ _ _ 108%nat); vm_compute; reflexivity.
Qed.
Lemma fails_std nid : nid = 1160%Z \/ nid = 1168%Z -> exists g y, group_from_nid nid = Some g /\ on_curve (g_curve g) 1 y /\ compressible (g_curve g) 1 /\
  forall len, compress (g_curve g) (Some (1, y)) len = None.
Proof.
  intros H. assert (E : exists i, (i < 10)%nat /\ ((i =? 0) || (i =? 8))%nat = true /\ group_from_nid nid = Some (std i)).
  { destruct H as [-> | ->]; rewrite from_nid; [exists 0%nat|exists 8%nat]; repeat split; lia. }
  destruct E as [i [Hi [E0 E]]]. exists (std i). destruct (named i Hi) as [_ W].
  destruct (compress_fails (g_curve (std i))) as [y Hy]; [apply W| |rewrite trace_std, E0 by exact Hi; reflexivity|].
  - destruct i as [|[|[|[|[|[|[|[|[|[|i]]]]]]]]]]; try discriminate; reflexivity.
  - exists y. split; [exact E|exact Hy].
Qed.
(** The points whose compression fails. *)
Lemma compress_fails_iff c x y len : dstu_curve c -> on_curve c x y -> field_size c <= len ->
  (compress c (Some (x, y)) len = None <-> x = 1 /\ trace_of (c_p c) y = 0).
Proof.
  intros Hc Hon Hl. split.
  - intros E. destruct (dstu_parts c Hc) as [p [a [b [Ec [Hp [Hi [Ho [Ha Hb]]]]]]]]. subst c. cbn [c_p] in *.
    assert (T : trace_of p y = 0 \/ trace_of p y = 1).
    { destruct Hon as [_ [Y _]]. destruct (trace_of_tr p Hp y Y) as [E1 E2]. destruct (tr_bool p Hp Hi y) as [t Et].
      pose proof (eqm_equiv p). destruct t; [right|left]; (apply (elem_eq p Hp); [exact E2|apply (b2_elem p Hp true) || apply (b2_elem p Hp false)|]; etransitivity; [exact E1|exact Et]). }
    destruct (N.eq_dec x 1) as [E1|E1]; [destruct T as [T|T]; [split; assumption|]|];
      (destruct (compress_success _ x y len Hc Hon) as [out [E' _]]; [tauto|exact Hl|congruence]).
  - intros [-> T]. destruct c as [p a b]. apply compress_one; try assumption; apply Hc.
Qed.
Lemma succeeds_std nid g x y len : group_from_nid nid = Some g -> nid <> 1160%Z -> nid <> 1168%Z -> on_curve (g_curve g) x y -> compressible (g_curve g) x ->
  field_size (g_curve g) <= len -> exists out, compress (g_curve g) (Some (x, y)) len = Some out.
Proof.
  rewrite from_nid. destruct (_ && _)%Z eqn:Hn; [|discriminate]. intros [= <-] H1 H2 Hon Hx Hl.
  set (i := Z.to_nat (nid - 1160)) in *. assert (Hi : (i < 10)%nat) by lia. assert (E : ((i =? 0) || (i =? 8))%nat = false) by lia. clearbody i.
  destruct (named i Hi) as [_ W]. pose proof (trace_std i Hi) as T. rewrite E in T.
  destruct (compress (g_curve (std i)) (Some (x, y)) len) as [out|] eqn:Ec; [exists out; reflexivity|exfalso].
  assert (Hc : dstu_curve (g_curve (std i))) by apply W. apply compress_fails_iff in Ec; [|assumption..]. destruct Ec as [-> T0].
  destruct (dstu_parts _ Hc) as [p [a [b [E1 [Hp [Hirr [Ho [Ha Hb]]]]]]]]. rewrite E1 in *. unfold compressible in Hx. cbn [c_p c_a c_b] in *.
  pose proof (eqm_equiv p) as K1. pose proof (lxor_eqm p) as K2. pose proof (clmul_eqm p Hp) as K3.
  assert (Ea : a = 1). { destruct Ha as [-> |Ha]; [exfalso|exact Ha]. destruct (trace_of_tr p Hp 1 (elem_1 p Hp)) as [F _], (trace_of_tr p Hp 0 (elem_0 p Hp)) as [G _].
    apply (one_not_zero p Hp). etransitivity; [symmetry; apply (tr1 p Hp); exact Ho|]. etransitivity; [symmetry; exact F|]. rewrite Hx. etransitivity; [exact G|]. apply tr_0; exact Hp. }
  subst a. apply on_curve_iff in Hon; [|assumption..]. destruct Hon as [_ [Y Hon]]. unfold curve_eq in Hon.
  assert (Q : eqm p (y ⊗ y ⊕ y) b). { etransitivity; [|etransitivity; [exact Hon|]]; apply eq_eqm; rewrite !clmul_1_l; [reflexivity|rewrite lxor_self, N.lxor_0_l; reflexivity]. }
  apply (quad_trace p Hp Hirr) in Q. destruct (trace_of_tr p Hp b Hb) as [F _]. apply (one_not_zero p Hp).
  rewrite T in F. etransitivity; [exact F|exact Q].
Qed.
