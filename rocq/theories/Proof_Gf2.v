(** Polynomials over GF(2) as numbers: ring, division, degree. *)
From Coq Require Import Lia Ring.
From Verif Require Import Base Lib Model_Gf2m.

Notation "a ⊕ b" := (N.lxor a b) (at level 50, left associativity).
Notation "a ⊗ b" := (clmul a b) (at level 40, left associativity).

Lemma double_lxor a b : N.double (a ⊕ b) = N.double a ⊕ N.double b.
Proof. destruct a as [|a], b as [|b]; reflexivity. Qed.
Lemma lxor4 a b c d : (a ⊕ b) ⊕ (c ⊕ d) = (a ⊕ c) ⊕ (b ⊕ d).
Proof. rewrite !N.lxor_assoc. f_equal. rewrite <- !N.lxor_assoc. f_equal. apply N.lxor_comm. Qed.
Lemma clmul_0_r a : a ⊗ 0 = 0.
Proof. destruct a as [|a]; [reflexivity|]. cbn. induction a; cbn; rewrite ?IHa; reflexivity. Qed.
Lemma clmul_1_l a : 1 ⊗ a = a.
Proof. reflexivity. Qed.
Lemma clmul_1_r a : a ⊗ 1 = a.
Proof. destruct a as [|a]; [reflexivity|]. cbn. induction a; cbn; rewrite ?IHa; reflexivity. Qed.
Lemma clmul_double_l a b : N.double a ⊗ b = N.double (a ⊗ b).
Proof. destruct a as [|a]; reflexivity. Qed.
Lemma clmul_sdouble_l a b : N.succ_double a ⊗ b = b ⊕ N.double (a ⊗ b).
Proof. destruct a as [|a]; [cbn; rewrite N.lxor_0_r|]; reflexivity. Qed.
Lemma clmul_lxor_r a b c : a ⊗ (b ⊕ c) = a ⊗ b ⊕ a ⊗ c.
Proof.
  induction a as [|a IH|a IH] using N.binary_ind; [reflexivity| |].
  - rewrite !clmul_double_l, IH, double_lxor. reflexivity.
  - rewrite !clmul_sdouble_l, IH, double_lxor. apply lxor4.
Qed.
Lemma clmul_double_r a b : a ⊗ N.double b = N.double (a ⊗ b).
Proof.
  induction a as [|a IH|a IH] using N.binary_ind; [reflexivity| |].
  - rewrite !clmul_double_l, IH. reflexivity.
  - rewrite !clmul_sdouble_l, IH, double_lxor. reflexivity.
Qed.
Lemma sdouble_lxor b : N.succ_double b = N.double b ⊕ 1.
Proof. destruct b; reflexivity. Qed.
Lemma clmul_comm a b : a ⊗ b = b ⊗ a.
Proof.
  revert b. induction a as [|a IH|a IH] using N.binary_ind; intros b.
  - symmetry. apply clmul_0_r.
  - rewrite clmul_double_l, clmul_double_r, IH. reflexivity.
  - rewrite clmul_sdouble_l, sdouble_lxor, clmul_lxor_r, clmul_double_r, clmul_1_r, IH. apply N.lxor_comm.
Qed.
Lemma clmul_lxor_l a b c : (a ⊕ b) ⊗ c = a ⊗ c ⊕ b ⊗ c.
Proof. rewrite !(clmul_comm _ c). apply clmul_lxor_r. Qed.
Lemma clmul_assoc a b c : a ⊗ (b ⊗ c) = a ⊗ b ⊗ c.
Proof.
  induction a as [|a IH|a IH] using N.binary_ind; [reflexivity| |].
  - rewrite !clmul_double_l, IH. reflexivity.
  - rewrite !clmul_sdouble_l, clmul_lxor_l, clmul_double_l, IH. reflexivity.
Qed.

(** Coefficients 0 and 1. *)
Definition b2 (b : bool) : N := if b then 1 else 0.
Lemma lxor_self a : a ⊕ a = 0.
Proof. apply N.lxor_nilpotent. Qed.

(** Degree. *)
Lemma log2_lxor_gt a b : N.log2 b < N.log2 a -> N.log2 (a ⊕ b) = N.log2 a.
Proof.
  intros H. destruct (N.eq_dec a 0) as [-> |Ha]; [cbn in H; lia|].
  apply N.log2_bits_unique.
  - rewrite N.lxor_spec, N.bit_log2 by exact Ha. rewrite (N.bits_above_log2 b) by exact H. reflexivity.
  - intros m Hm. rewrite N.lxor_spec, !N.bits_above_log2 by lia. reflexivity.
Qed.
Lemma log2_clmul a b : a <> 0 -> b <> 0 -> a ⊗ b <> 0 /\ N.log2 (a ⊗ b) = N.log2 a + N.log2 b.
Proof.
  intros Ha Hb. induction a as [|a IH|a IH] using N.binary_ind; [lia| |].
  - rewrite clmul_double_l, !N.double_spec in *. destruct IH as [H1 H2]; [lia|]. split; [lia|].
    rewrite !N.log2_double by lia. lia.
  - rewrite clmul_sdouble_l. destruct (N.eq_dec a 0) as [-> |Hn]; [cbn; rewrite N.lxor_0_r; split; [exact Hb|reflexivity]|].
    destruct IH as [H1 H2]; [exact Hn|].
    assert (E : N.log2 (b ⊕ N.double (a ⊗ b)) = N.log2 (N.double (a ⊗ b))).
    { rewrite N.lxor_comm. apply log2_lxor_gt. rewrite N.double_spec, N.log2_double by lia. lia. }
    assert (E2 : N.log2 (N.succ_double a) = N.succ (N.log2 a)) by (rewrite N.succ_double_spec; apply N.log2_succ_double; lia).
    rewrite E, E2, N.double_spec, N.log2_double by lia. rewrite N.double_spec, N.log2_double in E by lia.
    split; [|lia]. intros H0. rewrite H0 in E. cbn in E. lia.
Qed.
Lemma clmul_eq0 a b : a ⊗ b = 0 -> a = 0 \/ b = 0.
Proof.
  intros H. destruct (N.eq_dec a 0) as [-> |Ha]; [auto|]. destruct (N.eq_dec b 0) as [-> |Hb]; [auto|].
  destruct (log2_clmul a b Ha Hb). contradiction.
Qed.
Lemma clmul_eq1 a b : a ⊗ b = 1 -> a = 1.
Proof.
  intros H. destruct (N.eq_dec a 0) as [-> |Ha]; [discriminate|]. destruct (N.eq_dec b 0) as [-> |Hb]; [rewrite clmul_0_r in H; discriminate|].
  destruct (log2_clmul a b Ha Hb) as [_ E]. rewrite H in E. cbn in E. assert (E0 : N.log2 a = 0) by lia. apply N.log2_null in E0. lia.
Qed.
Lemma clmul_cancel a b c : a <> 0 -> a ⊗ b = a ⊗ c -> b = c.
Proof.
  intros Ha H. apply N.lxor_eq. destruct (clmul_eq0 a (b ⊕ c)) as [H0|H0]; [|contradiction|exact H0].
  rewrite clmul_lxor_r, H. apply lxor_self.
Qed.

(** Remainders. *)
Lemma degree_log2 p : p <> 0 -> degree p = N.log2 p.
Proof. intros H. unfold degree, num_bits. rewrite N.size_log2 by exact H. lia. Qed.
Lemma reduce1_lxor p m r s : reduce1 p m (r ⊕ s) = reduce1 p m r ⊕ reduce1 p m s.
Proof.
  unfold reduce1. rewrite N.lxor_spec. destruct (N.testbit r m), (N.testbit s m); cbn [xorb].
  - rewrite lxor4, lxor_self, N.lxor_0_r. reflexivity.
  - rewrite !N.lxor_assoc. f_equal. apply N.lxor_comm.
  - rewrite N.lxor_assoc. reflexivity.
  - reflexivity.
Qed.
Lemma reduce1_0 p m : reduce1 p m 0 = 0.
Proof. unfold reduce1. rewrite N.bits_0. reflexivity. Qed.
Lemma pmod_double a p : pmod (N.double a) p = reduce1 p (degree p) (N.double (pmod a p)).
Proof. destruct a as [|a]; [symmetry; apply reduce1_0|reflexivity]. Qed.
Lemma pmod_sdouble a p : pmod (N.succ_double a) p = reduce1 p (degree p) (N.succ_double (pmod a p)).
Proof. destruct a as [|a]; reflexivity. Qed.
Lemma lxor_cases a b : (N.double a ⊕ N.double b = N.double (a ⊕ b)) /\ (N.succ_double a ⊕ N.double b = N.succ_double (a ⊕ b)) /\
  (N.double a ⊕ N.succ_double b = N.succ_double (a ⊕ b)) /\ (N.succ_double a ⊕ N.succ_double b = N.double (a ⊕ b)).
Proof. destruct a as [|a], b as [|b]; repeat split; cbn; try reflexivity; destruct (Pos.lxor a b); reflexivity. Qed.
Lemma pmod_lxor a b p : pmod (a ⊕ b) p = pmod a p ⊕ pmod b p.
Proof.
  revert b. induction a as [|a IH|a IH] using N.binary_ind; intros b; [reflexivity| |];
    destruct b as [|b|b] using N.binary_ind; try (rewrite !N.lxor_0_r; reflexivity);
    destruct (lxor_cases a b) as [E1 [E2 [E3 E4]]]; destruct (lxor_cases (pmod a p) (pmod b p)) as [F1 [F2 [F3 F4]]];
    rewrite ?E1, ?E2, ?E3, ?E4, ?pmod_double, ?pmod_sdouble, <- reduce1_lxor, ?F1, ?F2, ?F3, ?F4, IH; reflexivity.
Qed.
Lemma reduce1_lt p m r : N.log2 p = m -> p <> 0 -> r < 2 ^ (m + 1) -> reduce1 p m r < 2 ^ m.
Proof.
  intros Hp Hp0 Hr. unfold reduce1.
  assert (Hb : forall x, x < 2 ^ (m + 1) -> N.testbit x m = false -> x < 2 ^ m).
  { intros x Hx Hm. apply bits_lt. intros i Hi. destruct (N.eq_dec i m) as [-> |Hn]; [exact Hm|]. apply (testbit_high _ (m + 1)); [exact Hx|lia]. }
  destruct (N.testbit r m) eqn:E; [|apply Hb; assumption]. apply Hb.
  - apply lxor_lt; [exact Hr|]. apply N.log2_lt_pow2; lia.
  - rewrite N.lxor_spec, E. rewrite <- Hp, N.bit_log2 by exact Hp0. reflexivity.
Qed.
Lemma pmod_lt a p : p <> 0 -> pmod a p < 2 ^ N.log2 p.
Proof.
  intros Hp. pose proof (degree_log2 p Hp) as Hd.
  assert (P : forall k, 2 ^ (k + 1) = 2 * 2 ^ k) by (intros k; rewrite N.pow_add_r; lia).
  induction a as [|a IH|a IH] using N.binary_ind.
  - cbn. apply N.neq_0_lt_0, N.pow_nonzero. lia.
  - rewrite pmod_double, Hd. apply reduce1_lt; [reflexivity|exact Hp|]. rewrite P, N.double_spec. lia.
  - rewrite pmod_sdouble, Hd. apply reduce1_lt; [reflexivity|exact Hp|]. rewrite P, N.succ_double_spec. lia.
Qed.
Lemma pmod_small a p : p <> 0 -> a < 2 ^ N.log2 p -> pmod a p = a.
Proof.
  intros Hp Ha. pose proof (degree_log2 p Hp) as Hd. induction a as [|a IH|a IH] using N.binary_ind; [reflexivity| |].
  - rewrite pmod_double, IH by (rewrite N.double_spec in Ha; lia). unfold reduce1. rewrite Hd, (testbit_high _ (N.log2 p)) by (lia || exact Ha). reflexivity.
  - rewrite pmod_sdouble, IH by (rewrite N.succ_double_spec in Ha; lia). unfold reduce1. rewrite Hd, (testbit_high _ (N.log2 p)) by (lia || exact Ha). reflexivity.
Qed.
Lemma pmod_self p : 1 < p -> pmod p p = 0.
Proof.
  intros Hp. assert (Hl : N.log2 p <> 0) by (intros E; apply N.log2_null in E; lia).
  assert (P : 2 ^ N.log2 p = 2 * 2 ^ (N.log2 p - 1)) by (rewrite <- N.pow_succ_r' ; f_equal; lia).
  pose proof (N.log2_spec p ltac:(lia)) as [_ Hs]. rewrite N.pow_succ_r' in Hs.
  assert (R : reduce1 p (N.log2 p) p = 0) by (unfold reduce1; rewrite N.bit_log2 by lia; apply lxor_self).
  pose proof (degree_log2 p ltac:(lia)) as Hd.
  assert (E : p = if N.odd p then N.succ_double (N.div2 p) else N.double (N.div2 p)).
  { pose proof (N.div2_odd p). destruct (N.odd p); rewrite ?N.succ_double_spec, ?N.double_spec; cbn in *; lia. }
  assert (Hh : N.div2 p < 2 ^ N.log2 p) by (pose proof (N.div2_odd p); lia).
  rewrite E at 1. destruct (N.odd p) eqn:Ho.
  - rewrite pmod_sdouble, pmod_small, Hd, <- E by (lia || assumption). exact R.
  - rewrite pmod_double, pmod_small, Hd, <- E by (lia || assumption). exact R.
Qed.

(** Congruence modulo p. *)
Lemma pmod_clmul_p a p : 1 < p -> pmod (a ⊗ p) p = 0.
Proof.
  intros Hp. induction a as [|a IH|a IH] using N.binary_ind; [reflexivity| |].
  - rewrite clmul_double_l, pmod_double, IH. apply reduce1_0.
  - rewrite clmul_sdouble_l, pmod_lxor, pmod_double, IH, pmod_self by exact Hp. apply reduce1_0.
Qed.
Lemma pmod_div a p : exists q, a = q ⊗ p ⊕ pmod a p.
Proof.
  assert (R : forall r, exists q, r = q ⊗ p ⊕ reduce1 p (degree p) r).
  { intros r. unfold reduce1. destruct (N.testbit r (degree p)); [exists 1|exists 0; reflexivity].
    cbn [clmul pclmul]. rewrite (N.lxor_comm r), <- N.lxor_assoc, lxor_self. reflexivity. }
  induction a as [|a [q IH]|a [q IH]] using N.binary_ind; [exists 0; reflexivity| |].
  - rewrite pmod_double. destruct (R (N.double (pmod a p))) as [q' E]. exists (N.double q ⊕ q').
    rewrite IH at 1. rewrite double_lxor, E at 1. rewrite clmul_lxor_l, clmul_double_l, <- !N.lxor_assoc. reflexivity.
  - rewrite pmod_sdouble. destruct (R (N.succ_double (pmod a p))) as [q' E]. exists (N.double q ⊕ q').
    rewrite IH at 1. destruct (lxor_cases (q ⊗ p) (pmod a p)) as [_ [_ [E3 _]]]. rewrite <- E3, E at 1. rewrite clmul_lxor_l, clmul_double_l, <- !N.lxor_assoc. reflexivity.
Qed.
Lemma pmod_eq a b p : 1 < p -> (pmod a p = pmod b p <-> exists q, a = b ⊕ q ⊗ p).
Proof.
  intros Hp. split.
  - intros H. destruct (pmod_div a p) as [q Eq], (pmod_div b p) as [r Er]. exists (q ⊕ r).
    rewrite Eq, Er at 1. rewrite H, clmul_lxor_l. rewrite (N.lxor_comm (r ⊗ p)), !N.lxor_assoc, (N.lxor_comm _ (pmod b p)).
    f_equal. rewrite (N.lxor_comm (q ⊗ p)), <- !N.lxor_assoc, lxor_self. apply eq_sym, N.lxor_0_l.
  - intros [q ->]. rewrite pmod_lxor, pmod_clmul_p by exact Hp. apply N.lxor_0_r.
Qed.
Lemma pmod_0 p : pmod 0 p = 0.
Proof. reflexivity. Qed.
Lemma pmod_idem a p : p <> 0 -> pmod (pmod a p) p = pmod a p.
Proof. intros Hp. apply pmod_small; [exact Hp|apply pmod_lt; exact Hp]. Qed.
Lemma pmod_mul_l a b p : 1 < p -> pmod (pmod a p ⊗ b) p = pmod (a ⊗ b) p.
Proof.
  intros Hp. destruct (pmod_div a p) as [q Eq]. rewrite Eq at 2.
  rewrite clmul_lxor_l, pmod_lxor, <- clmul_assoc, (clmul_comm p), clmul_assoc, pmod_clmul_p by exact Hp. rewrite N.lxor_0_l. reflexivity.
Qed.
Lemma pmod_mul_r a b p : 1 < p -> pmod (a ⊗ pmod b p) p = pmod (a ⊗ b) p.
Proof. intros Hp. rewrite !(clmul_comm a). apply pmod_mul_l. exact Hp. Qed.
