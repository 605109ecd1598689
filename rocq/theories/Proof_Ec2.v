(** Multiples of a point; the points with compressible coordinates. *)
From Coq Require Import Lia Ring Setoid Morphisms.
From Verif Require Import Base Lib Model_Gf2m Model_Compress Model_Ec Spec_Gf2m Spec_Compress Proof_Gf2 Proof_Field Proof_Compress Proof_Compress2 Proof_Ec.

Section Mul.
Variables p a b : N.
Hypothesis Hp : 1 < p.
Notation "u ≡ v" := (eqm p u v) (at level 70).
#[local] Instance k1 : Equivalence (eqm p) := eqm_equiv p.
#[local] Instance k2 : Proper (eqm p ==> eqm p ==> eqm p) N.lxor := lxor_eqm p.
#[local] Instance k3 : Proper (eqm p ==> eqm p ==> eqm p) clmul := clmul_eqm p Hp.
Add Ring Rp5 : (Rp_theory p) (morphism (Rp_morph p), setoid (eqm_equiv p) (Rp_ext p Hp)).
Hypothesis Hirr : irreducible p.
Hypothesis Ha : elem p a.
Hypothesis Hb : elem p b.
Hypothesis Hb0 : b <> 0.
Notation c := (CURVE p a b).
Notation pt := (pt p a b).
Let assoc := padd_assoc p a b Hp Hirr Ha Hb Hb0.
Let comm := padd_comm p a b Hp Hirr Ha.
Let addpt := padd_pt p a b Hp Hirr Ha.
Let negpt := pneg_pt p a b Hp.

Fixpoint nmul (n : nat) (P : point) : point := match n with O => None | S k => padd c (nmul k P) P end.
Lemma nmul_pt n P : pt P -> pt (nmul n P).
Proof. intros H. induction n as [|n IH]; [exact I|]. apply addpt; assumption. Qed.
Lemma padd_0_r P : padd c P None = P.
Proof. destruct P as [[? ?]|]; reflexivity. Qed.
Lemma nmul_add i j P : pt P -> nmul (i + j) P = padd c (nmul i P) (nmul j P).
Proof.
  intros H. induction j as [|j IH]; [rewrite Nat.add_0_r, padd_0_r; reflexivity|].
  rewrite Nat.add_succ_r. cbn [nmul]. rewrite IH. apply assoc; try apply nmul_pt; exact H.
Qed.
Lemma nmul_mul i j P : pt P -> nmul (i * j) P = nmul i (nmul j P).
Proof.
  intros H. induction i as [|i IH]; [reflexivity|]. cbn [Nat.mul nmul].
  rewrite nmul_add, IH by exact H. apply comm; repeat apply nmul_pt; exact H.
Qed.
Lemma nmul_neg n P : pt P -> nmul n (pneg P) = pneg (nmul n P).
Proof.
  intros H. induction n as [|n IH]; [reflexivity|]. cbn [nmul]. rewrite IH. symmetry. apply pneg_padd; try apply nmul_pt; assumption.
Qed.
Lemma nmul_None n : nmul n None = None.
Proof. induction n as [|n IH]; [reflexivity|]. cbn [nmul]. rewrite IH. reflexivity. Qed.
Lemma pmulp_nmul k P : pt P -> pmulp c k P = nmul (Pos.to_nat k) P.
Proof.
  intros H. induction k as [k IH|k IH|].
  - cbn [pmulp]. rewrite IH, <- nmul_add by exact H. replace (Pos.to_nat k~1) with (S (Pos.to_nat k + Pos.to_nat k)) by lia. reflexivity.
  - cbn [pmulp]. rewrite IH, <- nmul_add by exact H. f_equal. lia.
  - reflexivity.
Qed.
Lemma pmul_nmul k P : pt P -> pmul c k P = nmul (N.to_nat k) P.
Proof. intros H. destruct k as [|k]; [reflexivity|]. cbn [pmul]. rewrite pmulp_nmul by exact H. reflexivity. Qed.

Lemma pmul_pt k P : pt P -> pt (pmul c k P).
Proof. intros H. rewrite pmul_nmul by exact H. apply nmul_pt. exact H. Qed.
Lemma pmul_add i j P : pt P -> pmul c (i + j) P = padd c (pmul c i P) (pmul c j P).
Proof. intros H. rewrite !pmul_nmul by exact H. rewrite N2Nat.inj_add. apply nmul_add. exact H. Qed.
Lemma pmul_mul i j P : pt P -> pmul c (i * j) P = pmul c i (pmul c j P).
Proof.
  intros H. rewrite (pmul_nmul j) by exact H. rewrite !pmul_nmul by (try apply nmul_pt; exact H). rewrite N2Nat.inj_mul. apply nmul_mul. exact H.
Qed.
Lemma pmul_pneg k P : pt P -> pmul c k (pneg P) = pneg (pmul c k P).
Proof. intros H. rewrite !pmul_nmul by (try apply negpt; exact H). apply nmul_neg. exact H. Qed.
Lemma pmul_None k : pmul c k None = None.
Proof. rewrite pmul_nmul by exact I. apply nmul_None. Qed.
Lemma pmul_period n k P : pt P -> pmul c n P = None -> pmul c (k * n) P = None.
Proof. intros H E. rewrite pmul_mul, E by exact H. apply pmul_None. Qed.
Lemma pmul_mod n k P : pt P -> n <> 0 -> pmul c n P = None -> pmul c (k mod n) P = pmul c k P.
Proof.
  intros H H0 E. rewrite (N.div_mod k n H0) at 2. rewrite pmul_add, (N.mul_comm n), (pmul_period n) by assumption. reflexivity.
Qed.
Lemma pmul_eq n i j P : pt P -> n <> 0 -> pmul c n P = None -> i mod n = j mod n -> pmul c i P = pmul c j P.
Proof. intros H H0 E M. rewrite <- (pmul_mod n i), <- (pmul_mod n j), M by assumption. reflexivity. Qed.
(** (n - k) P = - k P *)
Lemma pmul_sub n k P : pt P -> pmul c n P = None -> k <= n -> pmul c (n - k) P = pneg (pmul c k P).
Proof.
  intros H E Hk. apply (opp_iff p a b Hp Hirr Ha); try apply pmul_pt; try assumption.
  rewrite <- pmul_add by exact H. replace (k + (n - k)) with n by lia. exact E.
Qed.

(** Verification's equation: if s = e + d r mod n then s P + r (- d P) = e P. *)
Lemma verify_eq n d e r s P : pt P -> n <> 0 -> pmul c n P = None -> s mod n = (e + d * r) mod n ->
  padd c (pmul c s P) (pmul c r (pneg (pmul c d P))) = pmul c e P.
Proof.
  intros H H0 E M. rewrite pmul_pneg by (apply pmul_pt; exact H).
  rewrite <- pmul_mul by exact H. rewrite (pmul_eq n s (e + d * r)) by assumption.
  rewrite pmul_add, (N.mul_comm r d) by exact H. apply padd_sub; try assumption; apply pmul_pt; exact H.
Qed.

(** Points with the trace of a. *)
Definition trx (P : point) : Prop := match P with None => True | Some (x, y) => tr (deg p) x ≡ tr (deg p) a end.
Lemma trx_padd P Q : pt P -> pt Q -> trx P -> trx Q -> trx (padd c P Q).
Proof.
  intros HP HQ TP TQ. destruct P as [[x1 y1]|]; [|exact TQ]. destruct Q as [[x2 y2]|]; [|exact TP].
  destruct (opp_dec x1 y1 x2 y2) as [O|O]; [rewrite (padd_opp p a b) by assumption; exact I|].
  destruct (padd_sl p a b Hp Hirr Ha _ _ _ _ HP HQ O) as [l [x3 [y3 [S [-> [X [Y [Ex Ey]]]]]]]]. cbn [trx] in *. unfold sumx in Ex.
  assert (E : tr (deg p) x3 ≡ tr (deg p) (l ⊗ l ⊕ l ⊕ x1 ⊕ x2 ⊕ a)) by (apply tr_eqm; assumption).
  rewrite E, !(tr_add p Hp), TP, TQ, (tr_deg_sq p Hp Hirr). ring.
Qed.
Lemma trx_nmul n P : pt P -> trx P -> trx (nmul n P).
Proof. intros H T. induction n as [|n IH]; [exact I|]. apply trx_padd; try apply nmul_pt; assumption. Qed.
Lemma trx_pmul k P : pt P -> trx P -> trx (pmul c k P).
Proof. intros H T. rewrite pmul_nmul by exact H. apply trx_nmul; assumption. Qed.
Lemma trx_neg P : trx P -> trx (pneg P).
Proof. destruct P as [[x y]|]; exact (fun H => H). Qed.
Lemma trx_compressible x y : pt (Some (x, y)) -> (trx (Some (x, y)) <-> compressible c x).
Proof.
  intros [X [Y _]]. unfold compressible. cbn [trx c_p c_a].
  destruct (trace_of_tr p Hp x X) as [E1 F1], (trace_of_tr p Hp a Ha) as [E2 F2]. split.
  - intros E. apply (elem_eq p Hp); [assumption..|]. rewrite E1, E2. exact E.
  - intros E. rewrite <- E1, <- E2, E. reflexivity.
Qed.
End Mul.
