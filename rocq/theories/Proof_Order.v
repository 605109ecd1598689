(** A checked computation of n G = O from a list of slopes. *)
From Coq Require Import Lia Ring Setoid Morphisms.
From Verif Require Import Base Lib Model_Gf2m Model_Compress Model_Ec Spec_Gf2m Spec_Compress Proof_Gf2 Proof_Field Proof_Compress Proof_Irr Proof_Hex Proof_Ec Proof_Ec2.

Section Check.
Variables m low a : N.
Let p := N.shiftl 1 m ⊕ low.
(** Reduction modulo X^m + low, to a multiple of four coefficients; [lowK] is low X^(4nd - m). *)
Variables (nd : nat) (lowK : hx).
Definition hfold (x : hx) : hx := hxor (hlo nd x) (hmul lowK (hhi nd x)).
Definition red (x : hx) : hx := hfold (hfold x).
Definition iszero (x : hx) : bool := foldm m low (val (red x)) =? 0.
Definition nonzero (x : hx) : bool := let v := foldm m low (val (red x)) in negb (v =? 0) && (N.size v <=? m).
Definition ha : hx := ofN a.
Inductive cstep := Dbl (L' : N) | Add (L' lam L3 : N) | Sub (L' lam L3 : N).
(** State: x and L stand for the point (x, x^2 + L x). *)
Definition dbl (x L L' : hx) : option hx :=
  let x' := hxor (red (hsqr L)) (hxor L ha) in
  if iszero (hxor (hmul (hxor L' (hxor L (Hexadecimal.D1 Hexadecimal.Nil))) x') (hxor (hsqr x') (hsqr x))) then Some x' else None.
Definition adds (gx gy x L lam L3 : hx) : option hx :=
  let dx := hxor x gx in
  let x3 := hxor (red (hsqr lam)) (hxor lam (hxor dx ha)) in
  if nonzero dx && iszero (hxor (hmul lam dx) (hxor (hsqr x) (hxor (hmul L x) gy))) &&
     iszero (hxor (hmul L3 x3) (hxor (hsqr x3) (hxor (hmul lam (hxor gx x3)) (hxor x3 gy)))) then Some x3 else None.
Fixpoint steps (gx gy : hx) (l : list cstep) (k : N) (x L : hx) : option (N * hx * hx) :=
  match l with
  | [] => Some (k, x, L)
  | Dbl L' :: t => let L' := ofN L' in match dbl x L L' with Some x' => steps gx gy t (2 * k) x' L' | None => None end
  | Add L' lam L3 :: t =>
      let L' := ofN L' in let L3 := ofN L3 in
      match dbl x L L' with
      | Some x' => match adds gx gy x' L' (ofN lam) L3 with Some x3 => steps gx gy t (2 * k + 1) x3 L3 | None => None end
      | None => None
      end
  | Sub L' lam L3 :: t =>
      let L' := ofN L' in let L3 := ofN L3 in
      match dbl x L L' with
      | Some x' => match adds gx (hxor gx gy) x' L' (ofN lam) L3 with Some x3 => steps gx gy t (2 * k - 1) x3 L3 | None => None end
      | None => None
      end
  end.
(** The last point must be G or -G. *)
Definition order_check (gx gy L0 : N) (l : list cstep) (n : N) : bool :=
  let hgx := ofN gx in let hgy := ofN gy in let hL := ofN L0 in
  iszero (hxor (hmul hL hgx) (hxor (hsqr hgx) hgy)) && negb (gx =? 0) &&
  (N.shiftl 1 (4 * N.of_nat nd - m) ⊗ low =? val lowK) && (m <=? 4 * N.of_nat nd) &&
  match steps hgx hgy l 1 hgx hL with
  | Some (k, x, L) =>
      iszero (hxor x hgx) && (0 <? k) &&
      ((iszero (hxor (hsqr x) (hxor (hmul L x) hgy)) && (n =? k - 1)) ||
       (iszero (hxor (hsqr x) (hxor (hmul L x) (hxor hgx hgy))) && (n =? k + 1)))
  | None => false
  end.

Variable b : N.
Hypothesis Hp : 1 < p.
Hypothesis Hm : degree p = m.
Hypothesis Hirr : irreducible p.
Hypothesis Ha : elem p a.
Hypothesis Hb : elem p b.
Hypothesis Hb0 : b <> 0.
Notation c := (CURVE p a b).
Notation "u ≡ v" := (eqm p u v) (at level 70).
#[local] Instance k1 : Equivalence (eqm p) := eqm_equiv p.
#[local] Instance k2 : Proper (eqm p ==> eqm p ==> eqm p) N.lxor := lxor_eqm p.
#[local] Instance k3 : Proper (eqm p ==> eqm p ==> eqm p) clmul := clmul_eqm p Hp.
Add Ring Rp6 : (Rp_theory p) (morphism (Rp_morph p), setoid (eqm_equiv p) (Rp_ext p Hp)).

Hypothesis HlowK : N.shiftl 1 (4 * N.of_nat nd - m) ⊗ low = val lowK.
Hypothesis Hnd : m <= 4 * N.of_nat nd.
Lemma hfold_ok x : val (hfold x) ≡ val x.
Proof.
  unfold hfold. rewrite val_xor, val_mul, (val_split nd x), <- HlowK.
  assert (E : N.shiftl (val (hhi nd x)) (4 * N.of_nat nd) ≡ N.shiftl 1 (4 * N.of_nat nd - m) ⊗ low ⊗ val (hhi nd x)).
  { replace (4 * N.of_nat nd) with (m + (4 * N.of_nat nd - m)) at 1 by lia. rewrite <- N.shiftl_shiftl, shiftl_clmul, (shiftl_clmul _ m).
    assert (E : N.shiftl 1 m ≡ low). { apply (eq_of p Hp). split. fold p. transitivity (pmod (p ⊗ 1) p); [rewrite clmul_1_r; reflexivity|].
      rewrite clmul_comm, pmod_clmul_p by exact Hp. reflexivity. }
    rewrite E. ring. }
  rewrite E. ring.
Qed.
Lemma red_ok x : val (red x) ≡ val x.
Proof. unfold red. rewrite !hfold_ok. reflexivity. Qed.
Lemma eqm0_fold x : (foldm m low x =? 0) = true -> x ≡ 0.
Proof. intros H. apply N.eqb_eq in H. rewrite <- H. symmetry. apply foldm_ok; [exact Hp|reflexivity]. Qed.
Lemma iszero_ok x : iszero x = true -> val x ≡ 0.
Proof. intros H. apply eqm0_fold in H. rewrite red_ok in H. exact H. Qed.
Lemma ha_ok : val ha = a.
Proof. apply val_ofN. Qed.
Lemma size_elem x : N.size x <= m -> elem p x.
Proof.
  intros H. unfold elem. rewrite Hm. destruct (N.eq_dec x 0) as [-> |H0]; [apply N.neq_0_lt_0, N.pow_nonzero; lia|].
  rewrite N.size_log2 in H by exact H0. apply N.log2_lt_pow2; lia.
Qed.
Lemma nonzero_ok x : nonzero x = true -> ~ val x ≡ 0.
Proof.
  unfold nonzero. cbv zeta. rewrite andb_true_iff. intros [H1 H2] E. set (v := foldm m low (val (red x))) in *.
  assert (Ev : v ≡ 0) by (unfold v; rewrite (foldm_ok p m low) by (exact Hp || reflexivity); rewrite red_ok; exact E).
  apply (elem_eqm0 p Hp) in Ev; [lia|]. apply size_elem. lia.
Qed.

(** The point of a state. *)
Definition pof (x L : hx) : point := Some (pmod (val x) p, pmod (val x ⊗ val x ⊕ val L ⊗ val x) p).
Lemma pof_y x L x0 y : elem p x0 -> elem p y -> x0 ≡ val x -> val L ⊗ val x ≡ val x ⊗ val x ⊕ y -> pof x L = Some (x0, y).
Proof.
  intros Hx Hy Ex E. unfold pof. assert (E1 : pmod (val x) p = x0).
  { apply (elem_eq p Hp); [apply pmod_elem; exact Hp|exact Hx|]. rewrite (pmod_eqm p Hp). symmetry. exact Ex. }
  rewrite E1. f_equal. f_equal. apply (elem_eq p Hp); [apply pmod_elem; exact Hp|exact Hy|].
  rewrite (pmod_eqm p Hp). apply (comb1 p Hp _ _ 1 _ _ E). ring.
Qed.
Lemma dbl_ok x L L' x' : pt p a b (pof x L) -> ~ val x ≡ 0 -> dbl x L L' = Some x' ->
  ~ val x' ≡ 0 /\ pt p a b (pof x' L') /\ padd c (pof x L) (pof x L) = pof x' L'.
Proof.
  intros P H0. unfold dbl. destruct (iszero _) eqn:T; [|discriminate]. intros E. injection E as E.
  rewrite E in T. apply iszero_ok in T. rewrite !val_xor, val_mul, !val_xor, !val_sqr in T. cbn [val] in T.
  assert (Ex : val x' ≡ val L ⊗ val L ⊕ val L ⊕ a) by (rewrite <- E, !val_xor, red_ok, val_sqr, ha_ok; ring). clear E.
  change (1 ⊕ 16 ⊗ 0) with 1 in T.
  assert (H0' : ~ val x' ≡ 0).
  { intros Z. rewrite Z in T. assert (Q : val x ⊗ val x ≡ 0) by (rewrite <- T; ring). destruct (integral p Hp Hirr _ _ Q); contradiction. }
  split; [exact H0'|].
  assert (S0 : sl p a (pmod (val x) p) (pmod (val x ⊗ val x ⊕ val L ⊗ val x) p) (pmod (val x) p) (pmod (val x ⊗ val x ⊕ val L ⊗ val x) p) (val L)).
  { split; [rewrite !lxor_self; ring|]. rewrite !(pmod_eqm p Hp). ring. }
  assert (E : padd c (pof x L) (pof x L) = pof x' L').
  { unfold pof at 1 2. apply (padd_by p a b Hp Hirr Ha _ _ _ _ (val L)); try assumption.
    - intros [_ E]. apply H0. rewrite <- (pmod_eqm p Hp (val x)). set (Y := pmod (val x ⊗ val x ⊕ val L ⊗ val x) p) in *. set (X := pmod (val x) p) in *.
      rewrite <- (N.lxor_0_r X), <- (lxor_self Y), <- N.lxor_assoc, <- E, lxor_self. reflexivity.
    - apply pmod_elem. exact Hp.
    - apply pmod_elem. exact Hp.
    - unfold sumx. rewrite !(pmod_eqm p Hp), Ex. ring.
    - unfold sumy. rewrite !(pmod_eqm p Hp). apply (comb1 p Hp _ _ 1 _ _ T). ring. }
  split; [|exact E]. rewrite <- E. apply padd_pt; assumption.
Qed.
Lemma adds_ok hgx hgy gx gy x L lam L3 x3 : pt p a b (pof x L) -> pt p a b (Some (gx, gy)) -> val hgx = gx -> val hgy = gy -> adds hgx hgy x L lam L3 = Some x3 ->
  ~ val x3 ≡ 0 /\ pt p a b (pof x3 L3) /\ padd c (pof x L) (Some (gx, gy)) = pof x3 L3.
Proof.
  intros P G Egx Egy. unfold adds. destruct (_ && _ && _) eqn:T; [|discriminate]. intros E. injection E as E.
  rewrite E in T. rewrite !andb_true_iff in T. destruct T as [[T0 T1] T2]. apply nonzero_ok in T0. apply iszero_ok in T1, T2.
  repeat first [rewrite val_xor in T0|rewrite val_xor in T1|rewrite val_xor in T2|rewrite val_mul in T1|rewrite val_mul in T2|rewrite val_sqr in T1|rewrite val_sqr in T2].
  rewrite Egx in T0, T1, T2. rewrite Egy in T1, T2.
  assert (Ex : val x3 ≡ val lam ⊗ val lam ⊕ val lam ⊕ val x ⊕ gx ⊕ a) by (rewrite <- E, !val_xor, red_ok, val_sqr, ha_ok, Egx; ring). clear E.
  assert (O : ~ opp (pmod (val x) p) (pmod (val x ⊗ val x ⊕ val L ⊗ val x) p) gx gy).
  { intros [O _]. apply T0. rewrite O, (pmod_eqm p Hp). ring. }
  destruct (padd_sl p a b Hp Hirr Ha _ _ _ _ P G O) as [l [x4 [y4 [S0 [E4 [X4 [Y4 [Ex4 Ey4]]]]]]]].
  assert (El : l ≡ val lam).
  { destruct S0 as [S1 _]. rewrite !(pmod_eqm p Hp) in S1. apply (cancel p Hp Hirr _ _ _ T0).
    apply (comb2 p Hp _ _ 1 _ _ 1 _ _ S1 T1). ring. }
  unfold sumx, sumy in *. rewrite El, (pmod_eqm p Hp) in Ex4. rewrite El in Ey4.
  assert (E34 : x4 ≡ val x3) by (rewrite Ex, Ex4; ring). rewrite E34 in Ey4.
  assert (E : padd c (pof x L) (Some (gx, gy)) = pof x3 L3).
  { unfold pof at 1. rewrite E4. symmetry. apply pof_y; [exact X4|exact Y4|exact E34|]. rewrite Ey4. apply (comb1 p Hp _ _ 1 _ _ T2). ring. }
  assert (P3 : pt p a b (pof x3 L3)) by (rewrite <- E; apply padd_pt; assumption).
  split; [|split; [exact P3|exact E]]. intros Z. destruct P3 as [_ [_ P3]]. unfold curve_eq in P3. rewrite !(pmod_eqm p Hp), Z in P3.
  apply Hb0. apply (elem_eqm0 p Hp); [exact Hb|]. apply (comb1 p Hp _ _ 1 _ _ P3). ring.
Qed.
Lemma steps_ok gx gy l : pt p a b (Some (gx, gy)) -> forall k x L k' x' L', 0 < k -> pt p a b (pof x L) -> ~ val x ≡ 0 -> pmul c k (Some (gx, gy)) = pof x L ->
  steps (ofN gx) (ofN gy) l k x L = Some (k', x', L') -> pt p a b (pof x' L') /\ pmul c k' (Some (gx, gy)) = pof x' L'.
Proof.
  intros G. induction l as [|[L1|L1 lam L3|L1 lam L3] l IH]; intros k x L k' x' L' Hk P H0 E; cbn [steps]; cbv zeta.
  - intros [= <- <- <-]. split; assumption.
  - destruct (dbl x L _) as [x1|] eqn:Ed; [|discriminate]. destruct (dbl_ok _ _ _ _ P H0 Ed) as [H1 [P1 E1]]. intros R.
    apply (IH _ _ _ _ _ _) in R; [exact R|lia|exact P1|exact H1|]. replace (2 * k) with (k + k) by lia. rewrite pmul_add by assumption. rewrite E. exact E1.
  - destruct (dbl x L _) as [x1|] eqn:Ed; [|discriminate]. destruct (dbl_ok _ _ _ _ P H0 Ed) as [H1 [P1 E1]].
    destruct (adds _ _ _ _ _ _) as [x3|] eqn:Ea; [|discriminate]. destruct (adds_ok _ _ _ _ _ _ _ _ _ P1 G (val_ofN gx) (val_ofN gy) Ea) as [H3 [P3 E3]]. intros R.
    apply (IH _ _ _ _ _ _) in R; [exact R|lia|exact P3|exact H3|]. replace (2 * k + 1) with (k + k + 1) by lia. rewrite !pmul_add by assumption. rewrite E, E1. exact E3.
  - destruct (dbl x L _) as [x1|] eqn:Ed; [|discriminate]. destruct (dbl_ok _ _ _ _ P H0 Ed) as [H1 [P1 E1]].
    destruct (adds _ _ _ _ _ _) as [x3|] eqn:Ea; [|discriminate].
    assert (Eg : val (hxor (ofN gx) (ofN gy)) = gx ⊕ gy) by (rewrite val_xor, !val_ofN; reflexivity).
    destruct (adds_ok _ _ _ _ _ _ _ _ _ P1 (pneg_pt p a b Hp _ G) (val_ofN gx) Eg Ea) as [H3 [P3 E3]]. intros R.
    apply (IH _ _ _ _ _ _) in R; [exact R|lia|exact P3|exact H3|]. rewrite <- E3, <- E1, <- E, <- pmul_add by assumption.
    replace (k + k) with (2 * k - 1 + 1) by lia. rewrite (pmul_add p a b Hp Hirr Ha Hb Hb0 (2 * k - 1) 1) by assumption. symmetry.
    apply (padd_sub p a b Hp Hirr Ha Hb Hb0 _ (Some (gx, gy))); [apply pmul_pt|]; assumption.
Qed.
End Check.

Theorem order_check_ok m low a nd lowK b gx gy L0 l n : let p := N.shiftl 1 m ⊕ low in
  1 < p -> degree p = m -> irreducible p -> elem p a -> elem p b -> b <> 0 ->
  pt p a b (Some (gx, gy)) -> order_check m low a nd lowK gx gy L0 l n = true -> pmul (CURVE p a b) n (Some (gx, gy)) = None.
Proof.
  intros p Hp Hm Hirr Ha Hb Hb0 G. unfold order_check. cbv zeta. rewrite !andb_true_iff. intros [[[[T1 T2] T3] T4] T5].
  apply N.eqb_eq in T3. assert (Hnd : m <= 4 * N.of_nat nd) by lia.
  pose proof (k1 m low) as K1. pose proof (k2 m low) as K2. pose proof (k3 m low Hp) as K3.
  assert (IZ : forall x, iszero m low nd lowK x = true -> eqm p (val x) 0) by (intros x; apply (iszero_ok m low nd lowK b); assumption).
  apply IZ in T1. rewrite !val_xor, val_mul, val_sqr, !val_ofN in T1. fold p in T1.
  set (c := CURVE p a b) in *.
  destruct (steps _ _ _ _ _ _ _ _ _ _ _) as [[[k x] L]|] eqn:Es; [|discriminate].
  assert (E0 : pof m low (ofN gx) (ofN L0) = Some (gx, gy)).
  { apply pof_y; [exact Hp|apply G|apply G|rewrite val_ofN; fold p; reflexivity|]. rewrite !val_ofN. fold p.
    apply (comb1 p Hp _ _ 1 _ _ T1). apply eq_eqm. rewrite clmul_1_l, N.lxor_0_r. reflexivity. }
  assert (P0 : pt p a b (pof m low (ofN gx) (ofN L0))) by (rewrite E0; exact G).
  destruct (steps_ok m low a nd lowK b Hp Hm Hirr Ha Hb Hb0 T3 Hnd gx gy l G 1 (ofN gx) (ofN L0) k x L) as [P E]; [lia|exact P0| |rewrite E0; reflexivity|exact Es|].
  { rewrite val_ofN. apply (nz p Hp); [apply G|lia]. }
  fold p c in E. rewrite !andb_true_iff, orb_true_iff, !andb_true_iff in T5. destruct T5 as [[T5 T6] T7].
  assert (Hk : 0 < k) by lia. apply IZ in T5. rewrite val_xor, val_ofN in T5. fold p in T5.
  assert (Hx : eqm p gx (val x)) by (symmetry; apply (eq_of p Hp); exact T5).
  assert (Hy : forall y hy, val hy = y -> elem p y -> iszero m low nd lowK (hxor (hsqr x) (hxor (hmul L x) hy)) = true -> pmul c k (Some (gx, gy)) = Some (gx, y)).
  { intros y hy Eh Y H. apply IZ in H. rewrite !val_xor, val_mul, val_sqr, Eh in H. fold p in H. rewrite E. apply pof_y; [exact Hp|apply G|exact Y|exact Hx|].
    fold p. apply (comb1 p Hp _ _ 1 _ _ H). apply eq_eqm. rewrite clmul_1_l, N.lxor_0_r, <- !N.lxor_assoc. f_equal. apply N.lxor_comm. }
  destruct T7 as [[T7 T8]|[T7 T8]]; [apply (Hy gy) in T7; [|apply val_ofN|apply G]|apply (Hy (gx ⊕ gy)) in T7; [|rewrite val_xor, !val_ofN; reflexivity|apply elem_lxor; apply G]].
  - assert (En : k = n + 1) by lia. rewrite En in T7. unfold c in T7. rewrite pmul_add in T7 by assumption. fold c in T7. change (pmul c 1 (Some (gx, gy))) with (Some (gx, gy)) in T7.
    rewrite <- (padd_sub p a b Hp Hirr Ha Hb Hb0 (pmul c n (Some (gx, gy))) (Some (gx, gy))) by (try apply pmul_pt; assumption).
    fold c. rewrite T7. apply padd_pneg; assumption.
  - assert (En : n = k + 1) by lia. rewrite En. unfold c. rewrite pmul_add by assumption. fold c. rewrite T7.
    change (pmul c 1 (Some (gx, gy))) with (Some (gx, gy)). unfold c. rewrite padd_comm by (try apply (pneg_pt p a b Hp _ G); assumption).
    exact (padd_pneg p a b Hp _ G).
Qed.
