(** A certificate for irreducibility: X^(2^m) = X modulo p, m prime, no linear factor. *)
From Coq Require Import Lia Ring Setoid Morphisms.
From Verif Require Import Base Lib Model_Gf2m Spec_Gf2m Proof_Gf2 Proof_Field.

Lemma irreducible_factor p : 1 < p -> exists q c, irreducible q /\ q ⊗ c = p.
Proof.
  induction p as [p IH] using (well_founded_induction N.lt_wf_0). intros Hp.
  assert (D : irreducible p \/ exists a b, a ⊗ b = p /\ a <> 1 /\ b <> 1).
  { set (test := existsb (fun a => existsb (fun b => (a ⊗ b =? p) && negb (a =? 1) && negb (b =? 1)) (map N.of_nat (seq 0 (S (N.to_nat p))))) (map N.of_nat (seq 0 (S (N.to_nat p))))).
    destruct test eqn:E; unfold test in E.
    - right. apply existsb_exists in E. destruct E as [a [_ E]]. apply existsb_exists in E. destruct E as [b [_ E]]. exists a, b. lia.
    - left. split; [exact Hp|]. intros a b Hab. destruct (N.eq_dec a 1) as [|Ha]; [auto|]. destruct (N.eq_dec b 1) as [|Hb]; [auto|]. exfalso.
      assert (Hle : forall x y, x ⊗ y = p -> x <= p).
      { intros x y H. destruct (N.eq_dec x 0) as [-> |Hx]; [lia|]. destruct (N.eq_dec y 0) as [-> |Hy]; [rewrite clmul_0_r in H; lia|].
        destruct (N.eq_dec y 1) as [-> |Hy1]; [rewrite clmul_1_r in H; lia|].
        destruct (log2_clmul x y Hx Hy) as [_ E2]. rewrite H in E2. assert (N.log2 y <> 0) by (intros E3; apply N.log2_null in E3; lia).
        apply N.lt_le_incl, N.log2_lt_cancel. lia. }
      assert (Hin : forall x, x <= p -> In x (map N.of_nat (seq 0 (S (N.to_nat p))))).
      { intros x Hx. apply in_map_iff. exists (N.to_nat x). rewrite in_seq. lia. }
      assert (T : existsb (fun a => existsb (fun b => (a ⊗ b =? p) && negb (a =? 1) && negb (b =? 1)) (map N.of_nat (seq 0 (S (N.to_nat p))))) (map N.of_nat (seq 0 (S (N.to_nat p)))) = true); [|congruence].
      apply existsb_exists. exists a. split; [apply Hin, (Hle a b Hab)|]. apply existsb_exists. exists b. split; [apply Hin, (Hle b a); rewrite clmul_comm; exact Hab|]. lia. }
  destruct D as [D|[a [b [E [Ha Hb]]]]]; [exists p, 1; split; [exact D|apply clmul_1_r]|].
  assert (Ha0 : a <> 0) by (intros ->; cbn in E; lia). assert (Hb0 : b <> 0) by (intros ->; rewrite clmul_0_r in E; lia).
  assert (Hlt : a < p).
  { destruct (log2_clmul a b Ha0 Hb0) as [_ E2]. rewrite E in E2. assert (N.log2 b <> 0) by (intros E3; apply N.log2_null in E3; lia). apply N.log2_lt_cancel. lia. }
  destruct (IH a Hlt ltac:(lia)) as [q [c [Hq Ec]]]. exists q, (c ⊗ b). split; [exact Hq|]. rewrite clmul_assoc, Ec. exact E.
Qed.

Lemma eqm_factor p q c a b : 1 < p -> 1 < q -> q ⊗ c = p -> eqm p a b -> eqm q a b.
Proof.
  intros Hp Hq E [H]. apply pmod_eq in H; [|exact Hp]. destruct H as [k ->]. split. rewrite pmod_lxor, <- E, (clmul_comm q), clmul_assoc, pmod_clmul_p by exact Hq. apply N.lxor_0_r.
Qed.
Lemma frob_period p m a : 1 < p -> eqm p (frob m a) a -> forall k, eqm p (frob (k * m) a) a.
Proof.
  intros Hp H k. pose proof (eqm_equiv p) as Eq. induction k as [|k IH]; [apply frob_0; exact Hp|].
  cbn [Nat.mul]. etransitivity; [symmetry; apply frob_frob; exact Hp|]. etransitivity; [apply frob_eqm; [exact Hp|exact IH]|exact H].
Qed.

Theorem irreducible_cert p : 1 < p -> pmod p 2 <> 0 -> pmod p 3 <> 0 ->
  (forall d, 0 < d < degree p -> N.gcd d (degree p) = 1) -> eqm p (frob (deg p) 2) 2 -> irreducible p.
Proof.
  intros Hp H2 H3 Hm HX. destruct (irreducible_factor p Hp) as [q [c [Hq E]]]. pose proof (proj1 Hq) as Hq1.
  assert (Hc0 : c <> 0) by (intros ->; rewrite clmul_0_r in E; lia).
  destruct (log2_clmul q c ltac:(lia) Hc0) as [_ El]. rewrite E in El.
  assert (Dq : degree q = N.log2 q) by (apply degree_log2; lia). assert (Dp : degree p = N.log2 p) by (apply degree_log2; lia).
  destruct (N.eq_dec (N.log2 c) 0) as [Ec|Ec].
  - apply N.log2_null in Ec. assert (c = 1) by lia. subst c. rewrite clmul_1_r in E. subst q. exact Hq.
  - exfalso. pose proof (degree_pos q Hq1) as Hdq.
    pose proof (Hm (degree q) ltac:(lia)) as Hg.
    destruct (N.gcd_bezout_pos (degree q) (degree p) Hdq) as [u [v Huv]]. rewrite Hg in Huv.
    pose proof (eqm_equiv q) as Eqv.
    assert (F1 : eqm q (frob (deg q) 2) 2) by (apply frob_deg; assumption).
    assert (F2 : eqm q (frob (deg p) 2) 2) by (apply (eqm_factor p q c); assumption).
    assert (F3 : eqm q (frob 1 2) 2).
    { transitivity (frob 1 (frob (N.to_nat v * deg p) 2)); [apply frob_eqm; [exact Hq1|symmetry; apply frob_period; assumption]|].
      etransitivity; [apply frob_frob; exact Hq1|]. replace (1 + N.to_nat v * deg p)%nat with (N.to_nat u * deg q)%nat by (unfold deg; lia).
      apply frob_period; assumption. }
    assert (F4 : eqm q (2 ⊗ 3) 0).
    { transitivity (frob 1 2 ⊕ 2).
      - apply eq_eqm. reflexivity.
      - transitivity (2 ⊕ 2); [apply lxor_eqm; [exact F3|reflexivity]|apply eq_eqm; reflexivity]. }
    assert (Hdiv : forall x, (x = 2 \/ x = 3) -> eqm q x 0 -> pmod p x = 0).
    { intros x Hx [Hx0]. apply pmod_eq in Hx0; [|exact Hq1]. destruct Hx0 as [k Ek]. rewrite N.lxor_0_l in Ek.
      assert (Hx1 : 1 < x) by (destruct Hx; subst x; lia).
      assert (k = 1).
      { assert (Hk0 : k <> 0) by (intros ->; cbn in Ek; lia). destruct (log2_clmul k q Hk0 ltac:(lia)) as [_ Elk]. rewrite <- Ek in Elk.
        assert (N.log2 x = 1) by (destruct Hx; subst x; reflexivity). assert (Ez : N.log2 k = 0) by lia. apply N.log2_null in Ez. lia. }
      subst k. rewrite clmul_1_l in Ek. subst q. rewrite <- E, clmul_comm. apply pmod_clmul_p. exact Hx1. }
    destruct (integral q Hq1 Hq _ _ F4) as [H|H]; [apply H2; apply Hdiv; auto|apply H3; apply Hdiv; auto].
Qed.

(** Fast squaring modulo p = X^m + low. *)
Fixpoint pspread (a : positive) : positive := match a with xH => xH | xO a => xO (xO (pspread a)) | xI a => xI (xO (pspread a)) end.
Definition spread (a : N) : N := match a with 0 => 0 | Npos a => Npos (pspread a) end.
Lemma spread_ok a : spread a = a ⊗ a.
Proof.
  induction a as [|a IH|a IH] using N.binary_ind; [reflexivity| |].
  - rewrite clmul_double_l, clmul_double_r, <- IH. destruct a; reflexivity.
  - rewrite clmul_sdouble_l, sdouble_lxor, clmul_lxor_r, clmul_double_r, clmul_1_r, <- IH, double_lxor.
    rewrite (N.lxor_comm (N.double a) 1), N.lxor_assoc, (N.lxor_comm (N.double _) (N.double a)), <- (N.lxor_assoc (N.double a) (N.double a)), lxor_self, N.lxor_0_l.
    destruct a; reflexivity.
Qed.
Definition foldm (m low x : N) : N := N.land x (N.ones m) ⊕ low ⊗ N.shiftr x m.
Definition fsqr (m low x : N) : N := foldm m low (foldm m low (spread x)).
Lemma shiftl_clmul h m : N.shiftl h m = N.shiftl 1 m ⊗ h.
Proof.
  induction m as [|m IH] using N.peano_ind; [rewrite !N.shiftl_0_r; reflexivity|].
  rewrite !N.shiftl_succ_r, IH, clmul_double_l. reflexivity.
Qed.
Lemma foldm_ok p m low x : 1 < p -> p = N.shiftl 1 m ⊕ low -> eqm p (foldm m low x) x.
Proof.
  intros Hp E. split. apply pmod_eq; [exact Hp|]. exists (N.shiftr x m). unfold foldm.
  assert (Ex : x = N.land x (N.ones m) ⊕ N.shiftl (N.shiftr x m) m).
  { apply N.bits_inj. intros i. rewrite N.lxor_spec, N.land_spec. destruct (N.lt_ge_cases i m) as [H|H].
    - rewrite N.ones_spec_low, N.shiftl_spec_low by exact H. destruct (N.testbit x i); reflexivity.
    - rewrite N.ones_spec_high, N.shiftl_spec_high', N.shiftr_spec', andb_false_r by exact H. rewrite N.sub_add by exact H. destruct (N.testbit x i); reflexivity. }
  rewrite Ex at 3. rewrite E at 2 || rewrite E. rewrite (clmul_comm (N.shiftr x m)), clmul_lxor_l, <- shiftl_clmul, N.lxor_assoc. f_equal.
  rewrite <- N.lxor_assoc, lxor_self, N.lxor_0_l. reflexivity.
Qed.
Fixpoint fsqrs (m low : N) (n : nat) (x : N) : N := match n with O => x | S k => fsqrs m low k (fsqr m low x) end.
Lemma fsqrs_ok p m low n x : 1 < p -> p = N.shiftl 1 m ⊕ low -> eqm p (fsqrs m low n x) (frob n x).
Proof.
  intros Hp E. pose proof (eqm_equiv p). revert x. induction n as [|n IH]; intros x; cbn [fsqrs]; [symmetry; apply frob_0; exact Hp|].
  etransitivity; [apply IH|]. symmetry. etransitivity; [apply frob_S'; exact Hp|]. apply frob_eqm; [exact Hp|]. unfold fsqr. symmetry.
  etransitivity; [apply foldm_ok; assumption|]. etransitivity; [apply foldm_ok; assumption|]. apply eq_eqm, spread_ok.
Qed.
(** The whole check for p = X^m + low. *)
Definition irr_check (m low : N) : bool :=
  let p := N.shiftl 1 m ⊕ low in
  (1 <? p) && negb (pmod p 2 =? 0) && negb (pmod p 3 =? 0) && (degree p =? m) &&
  forallb (fun d => N.gcd (N.of_nat d) m =? 1) (seq 1 (N.to_nat m - 1)) && (fsqrs m low (N.to_nat m) 2 =? 2).
Theorem irr_check_ok m low : irr_check m low = true -> irreducible (N.shiftl 1 m ⊕ low).
Proof.
  unfold irr_check. set (p := N.shiftl 1 m ⊕ low). rewrite !andb_true_iff. intros [[[[[H1 H2] H3] H4] H5] H6].
  assert (Hp : 1 < p) by lia. assert (Hd : degree p = m) by lia.
  apply irreducible_cert; [exact Hp|lia|lia| |].
  - intros d Hdd. rewrite Hd in *. rewrite forallb_forall in H5. specialize (H5 (N.to_nat d) ltac:(apply in_seq; lia)). rewrite N2Nat.id in H5. lia.
  - pose proof (eqm_equiv p). unfold deg. rewrite Hd. etransitivity; [symmetry; apply fsqrs_ok; [exact Hp|reflexivity]|]. apply eq_eqm. lia.
Qed.
