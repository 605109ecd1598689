(** GF(2)[X]/p is a field for irreducible p: inverses, Fermat, Frobenius, traces. *)
From Coq Require Import Lia Ring Setoid Morphisms Permutation.
From Verif Require Import Base Lib Model_Gf2m Spec_Gf2m Proof_Gf2.

Record eqm (p a b : N) : Prop := EQM { eqm_pmod : pmod a p = pmod b p }.
Fixpoint pw (a : N) (n : nat) : N := match n with O => 1 | S k => a ⊗ pw a k end.

Section Ring.
Variable p : N.
Hypothesis Hp : 1 < p.
Notation "a ≡ b" := (eqm p a b) (at level 70).

#[local] Instance eqm_equiv : Equivalence (eqm p).
Proof. split; [intros x; split; reflexivity|intros x y [H]; split; symmetry; exact H|intros x y z [H1] [H2]; split; congruence]. Qed.
#[local] Instance lxor_eqm : Proper (eqm p ==> eqm p ==> eqm p) N.lxor.
Proof. intros a b [H] c d [H']. split. rewrite !pmod_lxor. congruence. Qed.
#[local] Instance clmul_eqm : Proper (eqm p ==> eqm p ==> eqm p) clmul.
Proof.
  intros a b [H] c d [H']. split. rewrite <- (pmod_mul_l a), <- (pmod_mul_l b), H by exact Hp.
  rewrite <- (pmod_mul_r _ c), <- (pmod_mul_r _ d), H' by exact Hp. reflexivity.
Qed.
Lemma eq_eqm a b : a = b -> a ≡ b.
Proof. intros ->. reflexivity. Qed.
Lemma Rp_theory : ring_theory 0 1 N.lxor clmul N.lxor (fun x => x) (eqm p).
Proof.
  split; intros; apply eq_eqm.
  - reflexivity.
  - apply N.lxor_comm.
  - symmetry. apply N.lxor_assoc.
  - apply clmul_1_l.
  - apply clmul_comm.
  - apply clmul_assoc.
  - apply clmul_lxor_l.
  - reflexivity.
  - apply lxor_self.
Qed.
Lemma Rp_ext : ring_eq_ext N.lxor clmul (fun x => x) (eqm p).
Proof. split; [exact lxor_eqm|exact clmul_eqm|intros a b H; exact H]. Qed.
Lemma Rp_morph : ring_morph 0 1 N.lxor clmul N.lxor (fun x => x) (eqm p) false true xorb andb xorb (fun x => x) Bool.eqb b2.
Proof.
  split; try reflexivity; try (intros [] []; reflexivity).
  intros x y H. apply eqb_prop in H. subst. reflexivity.
Qed.
Add Ring Rp : Rp_theory (morphism Rp_morph, setoid eqm_equiv Rp_ext).

Lemma test_ring a b : (a ⊕ b) ⊗ (a ⊕ b) ≡ a ⊗ a ⊕ b ⊗ b.
Proof. ring. Qed.

Lemma pmod_eqm a : pmod a p ≡ a.
Proof. split. apply pmod_idem. lia. Qed.
Lemma gmul_eqm a b : gmul p a b ≡ a ⊗ b.
Proof. apply pmod_eqm. Qed.
Lemma gsqr_eqm a : gsqr p a ≡ a ⊗ a.
Proof. apply pmod_eqm. Qed.
Lemma gmul_elem a b : elem p (gmul p a b).
Proof. unfold elem, gmul. rewrite degree_log2 by lia. apply pmod_lt. lia. Qed.
Lemma elem_eq a b : elem p a -> elem p b -> a ≡ b -> a = b.
Proof. unfold elem. rewrite degree_log2 by lia. intros Ha Hb [H]. rewrite !pmod_small in H by (lia || assumption). exact H. Qed.
Lemma elem_lxor a b : elem p a -> elem p b -> elem p (a ⊕ b).
Proof. apply lxor_lt. Qed.
Lemma degree_pos : 0 < degree p.
Proof. rewrite degree_log2 by lia. destruct (N.eq_dec (N.log2 p) 0) as [E|]; [apply N.log2_null in E|]; lia. Qed.
Lemma elem_1 : elem p 1.
Proof. unfold elem. pose proof degree_pos. apply (N.lt_le_trans _ (2 ^ 1)); [reflexivity|]. apply N.pow_le_mono_r; lia. Qed.
Lemma elem_0 : elem p 0.
Proof. unfold elem. apply N.neq_0_lt_0, N.pow_nonzero. lia. Qed.
Lemma one_not_zero : ~ 1 ≡ 0.
Proof. intros H. apply elem_eq in H; [discriminate|apply elem_1|apply elem_0]. Qed.

(** Powers. *)
Lemma pw_add a i j : pw a (i + j) ≡ pw a i ⊗ pw a j.
Proof. induction i as [|i IH]; cbn [pw Nat.add]; [ring|]. rewrite IH. ring. Qed.
Lemma pw_mul_base a b n : pw (a ⊗ b) n ≡ pw a n ⊗ pw b n.
Proof. induction n as [|n IH]; cbn [pw]; [ring|]. rewrite IH. ring. Qed.
Lemma pw_pw a i j : pw (pw a i) j ≡ pw a (i * j).
Proof.
  induction j as [|j IH]; cbn [pw]; [rewrite Nat.mul_0_r; reflexivity|]. rewrite IH, Nat.mul_succ_r, Nat.add_comm, pw_add. reflexivity.
Qed.
#[local] Instance pw_eqm : Proper (eqm p ==> eq ==> eqm p) pw.
Proof. intros a b H n ? <-. induction n as [|n IH]; cbn [pw]; [reflexivity|]. rewrite IH, H. reflexivity. Qed.
Lemma pw_1 n : pw 1 n ≡ 1.
Proof. induction n as [|n IH]; cbn [pw]; [reflexivity|]. rewrite IH. ring. Qed.
(** The Frobenius map, k times. *)
Definition frob (k : nat) (a : N) : N := pw a (2 ^ k).
#[local] Instance frob_eqm k : Proper (eqm p ==> eqm p) (frob k).
Proof. intros a b H. unfold frob. rewrite H. reflexivity. Qed.
Lemma frob_S k a : frob (S k) a ≡ frob k a ⊗ frob k a.
Proof. unfold frob. rewrite Nat.pow_succ_r'. replace (2 * 2 ^ k)%nat with (2 ^ k + 2 ^ k)%nat by lia. apply pw_add. Qed.
Lemma frob_0 a : frob 0 a ≡ a.
Proof. unfold frob. cbn [Nat.pow pw]. ring. Qed.
Lemma frob_add k a b : frob k (a ⊕ b) ≡ frob k a ⊕ frob k b.
Proof. induction k as [|k IH]; [rewrite !frob_0; reflexivity|]. rewrite !frob_S, IH. ring. Qed.
Lemma frob_mul k a b : frob k (a ⊗ b) ≡ frob k a ⊗ frob k b.
Proof. apply pw_mul_base. Qed.
Lemma frob_one k : frob k 1 ≡ 1.
Proof. apply pw_1. Qed.
Lemma frob_zero k : frob k 0 ≡ 0.
Proof. induction k as [|k IH]; [apply frob_0|]. rewrite frob_S, IH. ring. Qed.
Lemma frob_frob i j a : frob i (frob j a) ≡ frob (i + j) a.
Proof. unfold frob. rewrite pw_pw, Nat.pow_add_r, Nat.mul_comm. reflexivity. Qed.
Lemma frob_S' k a : frob (S k) a ≡ frob k (a ⊗ a).
Proof. rewrite frob_S, frob_mul. reflexivity. Qed.
Lemma gsqrs_frob k a : gsqrs p k a ≡ frob k a.
Proof.
  revert a. induction k as [|k IH]; intros a; cbn [gsqrs]; [symmetry; apply frob_0|]. rewrite IH, frob_S', gsqr_eqm. reflexivity.
Qed.
Lemma gsqrs_elem k a : elem p a -> elem p (gsqrs p k a).
Proof. revert a. induction k as [|k IH]; intros a H; cbn [gsqrs]; [exact H|]. apply IH, gmul_elem. Qed.
Lemma pmod_elem a : elem p (pmod a p).
Proof. unfold elem. rewrite degree_log2 by lia. apply pmod_lt. lia. Qed.
Lemma gpow_pw a e : gpow p a e ≡ pw a (Pos.to_nat e) /\ elem p (gpow p a e).
Proof.
  induction e as [e [IH _]|e [IH _]|]; cbn [gpow].
  - split; [|apply gmul_elem]. rewrite gmul_eqm, gsqr_eqm, IH, Pos2Nat.inj_xI. cbn [pw].
    replace (2 * Pos.to_nat e)%nat with (Pos.to_nat e + Pos.to_nat e)%nat by lia. rewrite pw_add. ring.
  - split; [|apply gmul_elem]. rewrite gsqr_eqm, IH, Pos2Nat.inj_xO.
    replace (2 * Pos.to_nat e)%nat with (Pos.to_nat e + Pos.to_nat e)%nat by lia. rewrite pw_add. ring.
  - split; [|apply pmod_elem]. rewrite pmod_eqm. cbn [pw Pos.to_nat Pos.iter_op]. change (Pos.to_nat 1) with 1%nat. cbn [pw]. ring.
Qed.

(** Inverses. *)
Definition unit (a : N) : Prop := exists b, a ⊗ b ≡ 1.
Lemma unit_mul a b : unit a -> unit b -> unit (a ⊗ b).
Proof. intros [x Hx] [y Hy]. exists (x ⊗ y). transitivity ((a ⊗ x) ⊗ (b ⊗ y)); [ring|]. rewrite Hx, Hy. ring. Qed.
Lemma unit_cancel a b c : unit a -> a ⊗ b ≡ a ⊗ c -> b ≡ c.
Proof.
  intros [x Hx] H. transitivity ((a ⊗ x) ⊗ b); [rewrite Hx; ring|]. transitivity (x ⊗ (a ⊗ b)); [ring|]. rewrite H.
  transitivity ((a ⊗ x) ⊗ c); [ring|rewrite Hx; ring].
Qed.
Lemma unit_eqm a b : a ≡ b -> unit a -> unit b.
Proof. intros H [x Hx]. exists x. rewrite <- H. exact Hx. Qed.

Hypothesis Hirr : irreducible p.

Lemma unit_small a : a <> 0 -> elem p a -> unit a.
Proof.
  induction a as [a IH] using (well_founded_induction N.lt_wf_0). intros H0 He.
  destruct (N.eq_dec a 1) as [-> |H1]; [exists 1; ring|].
  destruct (pmod_div p a) as [q Eq]. pose proof (pmod_lt p a H0) as Hlt. set (r := pmod p a) in *.
  assert (Hra : r < a) by (pose proof (N.log2_spec a ltac:(lia)); lia).
  destruct (N.eq_dec r 0) as [E0|E0].
  - exfalso. rewrite E0, N.lxor_0_r in Eq. destruct Hirr as [_ Hi]. destruct (Hi q a (eq_sym Eq)) as [-> |]; [|contradiction].
    cbn in Eq. subst a. unfold elem in He. rewrite degree_log2 in He by lia. pose proof (N.log2_spec p ltac:(lia)). lia.
  - destruct (IH r Hra E0) as [x Hx]; [unfold elem in *; lia|]. exists (q ⊗ x).
    assert (Hq : q ⊗ a ≡ r).
    { transitivity (q ⊗ a ⊕ r ⊕ r); [ring|]. rewrite <- Eq. assert (H : p ≡ 0) by (split; rewrite pmod_self by exact Hp; reflexivity).
      transitivity (0 ⊕ r); [apply lxor_eqm; [exact H|reflexivity]|ring]. }
    transitivity ((q ⊗ a) ⊗ x); [ring|]. rewrite Hq. exact Hx.
Qed.
Lemma unit_nonzero a : ~ a ≡ 0 -> unit a.
Proof.
  intros H. apply (unit_eqm (pmod a p)); [apply pmod_eqm|]. apply unit_small; [|apply pmod_elem].
  intros E. apply H. split. rewrite E. reflexivity.
Qed.
Lemma eqm_dec a b : {a ≡ b} + {~ a ≡ b}.
Proof. destruct (N.eq_dec (pmod a p) (pmod b p)) as [H|H]; [left; split; exact H|right; intros [H']; contradiction]. Qed.
Lemma integral a b : a ⊗ b ≡ 0 -> a ≡ 0 \/ b ≡ 0.
Proof.
  intros H. destruct (eqm_dec a 0) as [Ha|Ha]; [left; exact Ha|]. right. apply (unit_cancel a); [apply unit_nonzero; exact Ha|]. rewrite H. ring.
Qed.

(** Fermat. *)
Definition prodl (l : list N) : N := fold_right clmul 1 l.
Lemma prodl_perm l l' : Permutation l l' -> prodl l ≡ prodl l'.
Proof.
  induction 1 as [|x l l' _ IH|x y l|l1 l2 l3 _ IH1 _ IH2]; unfold prodl in *; cbn [fold_right].
  - reflexivity.
  - rewrite IH. reflexivity.
  - ring.
  - etransitivity; eassumption.
Qed.
Lemma prodl_map a l : prodl (map (gmul p a) l) ≡ pw a (length l) ⊗ prodl l.
Proof.
  induction l as [|x l IH]; unfold prodl in *; cbn [map fold_right length pw]; [ring|]. rewrite IH, gmul_eqm. ring.
Qed.
Definition nonzero : list N := map N.of_nat (seq 1 (N.to_nat (2 ^ degree p) - 1)).
Lemma in_nonzero x : In x nonzero <-> x <> 0 /\ elem p x.
Proof.
  unfold nonzero, elem. rewrite in_map_iff. split.
  - intros [k [<- Hk]]. rewrite in_seq in Hk. lia.
  - intros [H0 H1]. exists (N.to_nat x). rewrite in_seq. lia.
Qed.
Lemma unit_not0 a : unit a -> ~ a ≡ 0.
Proof. intros [x Hx] H. rewrite H in Hx. apply one_not_zero. rewrite <- Hx. ring. Qed.
Lemma elem_eqm0 x : elem p x -> x ≡ 0 -> x = 0.
Proof. intros H E. apply elem_eq; [exact H|apply elem_0|exact E]. Qed.
Lemma fermat a : ~ a ≡ 0 -> pw a (N.to_nat (2 ^ degree p) - 1) ≡ 1.
Proof.
  intros Ha. pose proof (unit_nonzero a Ha) as Hu.
  assert (Hn : NoDup nonzero).
  { unfold nonzero. apply FinFun.Injective_map_NoDup; [intros i j E; lia|apply seq_NoDup]. }
  assert (Hm : NoDup (map (gmul p a) nonzero)).
  { pose proof (fun x => proj1 (in_nonzero x)) as Hin. revert Hn Hin. generalize nonzero as l.
    induction l as [|x l IH]; intros Hd Hin; cbn [map]; [constructor|]. inversion Hd as [|? ? Hx Hl]. subst. constructor.
    - rewrite in_map_iff. intros [y [E Hy]]. apply Hx. replace x with y; [exact Hy|].
      destruct (Hin x (or_introl eq_refl)) as [_ Ex], (Hin y (or_intror Hy)) as [_ Ey].
      apply elem_eq; [exact Ey|exact Ex|]. apply (unit_cancel a); [exact Hu|]. rewrite <- !gmul_eqm, E. reflexivity.
    - apply IH; [exact Hl|]. intros y Hy. apply Hin. right. exact Hy. }
  assert (Hperm : Permutation (map (gmul p a) nonzero) nonzero).
  { apply NoDup_Permutation_bis; [exact Hm|rewrite map_length; lia|]. intros x Hx. apply in_map_iff in Hx. destruct Hx as [y [<- Hy]].
    apply in_nonzero in Hy. destruct Hy as [Hy0 Hy]. apply in_nonzero. split; [|apply gmul_elem].
    intros E. assert (E0 : a ⊗ y ≡ 0) by (rewrite <- gmul_eqm, E; reflexivity). destruct (integral _ _ E0) as [H|H]; [contradiction|]. apply elem_eqm0 in H; [contradiction|exact Hy]. }
  assert (Hup : unit (prodl nonzero)).
  { pose proof (fun x => proj1 (in_nonzero x)) as Hin. revert Hin. generalize nonzero as l. induction l as [|x l IH]; intros Hin; unfold prodl in *; cbn [fold_right]; [exists 1; ring|].
    apply unit_mul; [|apply IH; intros y Hy; apply Hin; right; exact Hy]. destruct (Hin x (or_introl eq_refl)). apply unit_small; assumption. }
  apply prodl_perm in Hperm. rewrite prodl_map in Hperm.
  assert (L : length nonzero = (N.to_nat (2 ^ degree p) - 1)%nat) by (unfold nonzero; rewrite map_length, seq_length; reflexivity). rewrite L in Hperm.
  apply (unit_cancel (prodl nonzero)); [exact Hup|]. transitivity (pw a (N.to_nat (2 ^ degree p) - 1) ⊗ prodl nonzero); [ring|]. rewrite Hperm. ring.
Qed.
Definition deg : nat := N.to_nat (degree p).
Lemma pow_deg : N.to_nat (2 ^ degree p) = (2 ^ deg)%nat.
Proof. unfold deg. rewrite N2Nat.inj_pow. reflexivity. Qed.
Lemma frob_deg a : frob deg a ≡ a.
Proof.
  destruct (eqm_dec a 0) as [E|E]; [rewrite E; apply frob_zero|].
  unfold frob. rewrite <- pow_deg. pose proof (fermat a E) as F.
  assert (H : N.to_nat (2 ^ degree p) = S (N.to_nat (2 ^ degree p) - 1)) by (pose proof elem_0 as H; unfold elem in H; lia).
  rewrite H. cbn [pw]. rewrite F. ring.
Qed.
Lemma ginv_ok a : ~ a ≡ 0 -> exists b, ginv p a = Some b /\ elem p b /\ a ⊗ b ≡ 1.
Proof.
  intros H. unfold ginv. pose proof degree_pos as Hd. pose proof (fermat a H) as F.
  destruct (N.eq_dec (degree p) 1) as [E|E].
  - rewrite E in *. change (2 ^ 1 - 2) with 0. cbv iota. change (N.to_nat (2 ^ 1) - 1)%nat with 1%nat in F. cbn [pw] in F.
    assert (F1 : a ≡ 1) by (rewrite <- F; ring). destruct F1 as [F1]. rewrite (pmod_small 1) in F1; [|lia|rewrite <- degree_log2, E by lia; reflexivity].
    rewrite F1. exists 1. split; [reflexivity|]. split; [apply elem_1|]. exact F || (rewrite <- F at 2; ring).
  - destruct (2 ^ degree p - 2) as [|e] eqn:Ee.
    + assert (2 ^ 2 <= 2 ^ degree p) by (apply N.pow_le_mono_r; lia). change (2 ^ 2) with 4 in *. lia.
    + destruct (gpow_pw a e) as [G1 G2]. exists (gpow p a e).
      assert (G : a ⊗ gpow p a e ≡ 1).
      { rewrite G1. replace (N.to_nat (2 ^ degree p) - 1)%nat with (S (Pos.to_nat e)) in F by lia. exact F. }
      assert (Gm : gmul p a (gpow p a e) = 1) by (apply elem_eq; [apply gmul_elem|apply elem_1|rewrite gmul_eqm; exact G]).
      rewrite Gm. split; [reflexivity|]. split; [exact G2|exact G].
Qed.
Lemma ginv_zero a : a ≡ 0 -> ginv p a = None.
Proof.
  intros H. unfold ginv. destruct (2 ^ degree p - 2) as [|e].
  - destruct H as [H]. rewrite H. reflexivity.
  - assert (E : gmul p a (gpow p a e) = 0) by (apply elem_eqm0; [apply gmul_elem|rewrite gmul_eqm; generalize (gpow p a e); intros g; rewrite H; ring]). rewrite E. reflexivity.
Qed.
Lemma ginv_inv a b : ginv p a = Some b -> elem p b /\ a ⊗ b ≡ 1.
Proof.
  intros H. destruct (eqm_dec a 0) as [E|E]; [rewrite ginv_zero in H by exact E; discriminate|].
  destruct (ginv_ok a E) as [b' [H1 H2]]. rewrite H1 in H. injection H as <-. exact H2.
Qed.

(** Square roots. *)
Lemma gsqrt_sq a : gsqrt p a ⊗ gsqrt p a ≡ a.
Proof.
  unfold gsqrt. rewrite !gsqrs_frob, <- frob_S. replace (S (N.to_nat (degree p - 1))) with deg by (pose proof degree_pos; unfold deg; lia).
  rewrite frob_deg. apply pmod_eqm.
Qed.
Lemma gsqrt_elem a : elem p (gsqrt p a).
Proof. apply gsqrs_elem, pmod_elem. Qed.
Lemma sq_inj a b : a ⊗ a ≡ b ⊗ b -> a ≡ b.
Proof.
  intros H. assert (H2 : (a ⊕ b) ⊗ (a ⊕ b) ≡ 0) by (transitivity (a ⊗ a ⊕ b ⊗ b); [ring|]; rewrite H; ring).
  assert (H3 : a ⊕ b ≡ 0) by (destruct (integral _ _ H2); assumption). transitivity (a ⊕ b ⊕ b); [ring|]. rewrite H3. ring.
Qed.

(** Traces. *)
Fixpoint tr (n : nat) (a : N) : N := match n with O => 0 | S k => frob k a ⊕ tr k a end.
#[local] Instance tr_eqm n : Proper (eqm p ==> eqm p) (tr n).
Proof. intros a b H. induction n as [|n IH]; cbn [tr]; [reflexivity|]. rewrite IH, H. reflexivity. Qed.
Lemma tr_add n a b : tr n (a ⊕ b) ≡ tr n a ⊕ tr n b.
Proof. induction n as [|n IH]; cbn [tr]; [ring|]. rewrite IH, frob_add. ring. Qed.
Lemma tr_sq n a : tr n (a ⊗ a) ≡ tr n a ⊕ a ⊕ frob n a.
Proof. induction n as [|n IH]; cbn [tr]; [rewrite frob_0; ring|]. rewrite IH, <- frob_S'. ring. Qed.
Lemma sq_tr n a : tr n a ⊗ tr n a ≡ tr n (a ⊗ a).
Proof. induction n as [|n IH]; cbn [tr]; [ring|]. rewrite <- IH, frob_mul. ring. Qed.
Lemma tr_deg_sq a : tr deg (a ⊗ a) ≡ tr deg a.
Proof. rewrite tr_sq, frob_deg. ring. Qed.
Lemma tr_bool a : exists t, tr deg a ≡ b2 t.
Proof.
  assert (H : tr deg a ⊗ (tr deg a ⊕ 1) ≡ 0) by (transitivity (tr deg a ⊗ tr deg a ⊕ tr deg a); [ring|]; rewrite sq_tr, tr_deg_sq; ring).
  destruct (integral _ _ H) as [E|E]; [exists false; exact E|exists true]. cbn. transitivity (tr deg a ⊕ 1 ⊕ 1); [ring|]. rewrite E. ring.
Qed.
Lemma tr_0 n : tr n 0 ≡ 0.
Proof. induction n as [|n IH]; cbn [tr]; [reflexivity|]. rewrite IH, frob_zero. ring. Qed.
Lemma tr_1 n : tr n 1 ≡ b2 (Nat.odd n).
Proof.
  induction n as [|n IH]; cbn [tr]; [reflexivity|]. rewrite IH, frob_one, Nat.odd_succ, <- Nat.negb_odd. destruct (Nat.odd n); cbn; [ring|ring].
Qed.
(** Half traces. *)
Fixpoint htr (n : nat) (a : N) : N := match n with O => a | S k => frob (2 * S k) a ⊕ htr k a end.
Lemma htr_quad n a : htr n a ⊗ htr n a ⊕ htr n a ≡ tr (2 * n + 2) a.
Proof.
  induction n as [|n IH].
  - cbn [htr Nat.mul Nat.add tr]. rewrite frob_S, !frob_0. ring.
  - replace (2 * S n + 2)%nat with (S (S (2 * n + 2))) by lia. cbn [htr tr]. rewrite <- IH, (frob_S (2 * n + 2)).
    replace (2 * S n)%nat with (2 * n + 2)%nat by lia. ring.
Qed.
Lemma half_trace_htr a n : forall k z, z ≡ htr k a -> half_trace p a n z ≡ htr (k + n) a.
Proof.
  induction n as [|n IH]; intros k z Hz; cbn [half_trace]; [rewrite Nat.add_0_r; exact Hz|].
  replace (k + S n)%nat with (S k + n)%nat by lia. apply IH. rewrite !gsqr_eqm, Hz.
  clear IH Hz. induction k as [|k IH].
  - cbn [htr]. change (2 * 1)%nat with (S (S 0)). rewrite !frob_S, frob_0. ring.
  - cbn [htr] in *. transitivity (frob (2 * S k) a ⊗ frob (2 * S k) a ⊗ (frob (2 * S k) a ⊗ frob (2 * S k) a) ⊕ (htr k a ⊗ htr k a ⊗ (htr k a ⊗ htr k a) ⊕ a)); [ring|].
    rewrite IH. replace (2 * S (S k))%nat with (S (S (2 * S k))) by lia. rewrite (frob_S (S _)), !(frob_S (2 * S k)). ring.
Qed.
Lemma half_trace_elem a n z : elem p a -> elem p z -> elem p (half_trace p a n z).
Proof. intros Ha. revert z. induction n as [|n IH]; intros z Hz; cbn [half_trace]; [exact Hz|]. apply IH, elem_lxor; [apply gmul_elem|exact Ha]. Qed.
Lemma quad_trace z a : z ⊗ z ⊕ z ≡ a -> tr deg a ≡ 0.
Proof. intros H. rewrite <- H, tr_add, tr_deg_sq. ring. Qed.
Lemma solve_quad_sound a z : solve_quad p a = Some z -> elem p z /\ z ⊗ z ⊕ z ≡ a.
Proof.
  unfold solve_quad. destruct (N.eqb_spec (pmod a p) 0) as [E|E].
  - intros [= <-]. split; [apply elem_0|]. assert (H : a ≡ 0) by (split; rewrite E; reflexivity). rewrite H. ring.
  - set (z0 := half_trace _ _ _ _). destruct (N.eqb_spec (gsqr p z0 ⊕ z0) (pmod a p)) as [E2|]; [|discriminate]. intros [= <-].
    split; [apply half_trace_elem; apply pmod_elem|]. rewrite <- (pmod_eqm a), <- E2, gsqr_eqm. reflexivity.
Qed.
Lemma solve_quad_complete a : Nat.odd deg = true -> tr deg a ≡ 0 -> exists z, solve_quad p a = Some z.
Proof.
  intros Hodd H. unfold solve_quad. destruct (N.eqb_spec (pmod a p) 0) as [E|E]; [eexists; reflexivity|].
  set (z0 := half_trace _ _ _ _). assert (Hz : gsqr p z0 ⊕ z0 = pmod a p); [|rewrite Hz, N.eqb_refl; eexists; reflexivity].
  assert (Ez : z0 ≡ htr (0 + N.to_nat ((degree p - 1) / 2)) (pmod a p)) by (apply half_trace_htr; reflexivity).
  cbn [Nat.add] in Ez. apply elem_eq; [apply elem_lxor; [apply gmul_elem|apply half_trace_elem; apply pmod_elem]|apply pmod_elem|].
  rewrite gsqr_eqm, Ez, htr_quad.
  assert (Ed : (2 * N.to_nat ((degree p - 1) / 2) + 2 = S deg)%nat).
  { apply Nat.odd_spec in Hodd. destruct Hodd as [h Hh]. unfold deg in *. lia. }
  rewrite Ed. cbn [tr]. rewrite frob_deg, !pmod_eqm, H. ring.
Qed.
End Ring.
