(** Proofs about compressed points. *)
From Coq Require Import Lia Ring Setoid Morphisms.
From Verif Require Import Base Lib Model_Gf2m Model_Compress Spec_Gf2m Spec_Compress Proof_Gf2 Proof_Field.

Ltac setx x := match goal with |- context [if ?b then N.setbit ?u 0 else ?u] => set (x := if b then N.setbit u 0 else u) in * | H : context [if ?b then N.setbit ?u 0 else ?u] |- _ => set (x := if b then N.setbit u 0 else u) in * end.
Section Any.
Variable p : N.
Hypothesis Hp : 1 < p.
Notation "a ≡ b" := (eqm p a b) (at level 70).
#[local] Instance i1 : Equivalence (eqm p) := eqm_equiv p.
#[local] Instance i2 : Proper (eqm p ==> eqm p ==> eqm p) N.lxor := lxor_eqm p.
#[local] Instance i3 : Proper (eqm p ==> eqm p ==> eqm p) clmul := clmul_eqm p Hp.
#[local] Instance i4 n : Proper (eqm p ==> eqm p) (frob n) := frob_eqm p Hp n.
#[local] Instance i5 n : Proper (eqm p ==> eqm p) (tr n) := tr_eqm p Hp n.
Add Ring Rp2 : (Rp_theory p) (morphism (Rp_morph p), setoid (eqm_equiv p) (Rp_ext p Hp)).

Lemma trace_loop_ok n a r : trace_loop n a p r ≡ frob n r ⊕ tr n a.
Proof.
  revert r. induction n as [|n IH]; intros r; cbn [trace_loop tr]; [rewrite (frob_0 p Hp); ring|].
  rewrite IH, (frob_add p Hp), (frob_S' p Hp), (gsqr_eqm p Hp). ring.
Qed.
Lemma trace_loop_elem n a r : elem p a -> elem p r -> elem p (trace_loop n a p r).
Proof. intros Ha. revert r. induction n as [|n IH]; intros r Hr; cbn [trace_loop]; [exact Hr|]. apply IH, elem_lxor; [apply gmul_elem; exact Hp|exact Ha]. Qed.
Lemma trace_loop_high n a r : elem p (trace_loop n a p r) -> (n = 0%nat -> r = a) -> elem p a.
Proof.
  revert r. induction n as [|n IH]; intros r H Hr; cbn [trace_loop] in H; [rewrite <- (Hr eq_refl); exact H|].
  destruct n as [|n].
  - cbn [trace_loop] in H. replace a with (gsqr p r ⊕ (gsqr p r ⊕ a)) by (rewrite <- N.lxor_assoc, lxor_self; apply N.lxor_0_l).
    apply elem_lxor; [apply gmul_elem; exact Hp|exact H].
  - apply (IH _ H). discriminate.
Qed.
Lemma b2_elem t : elem p (b2 t).
Proof. destruct t; [apply elem_1; exact Hp|apply elem_0; exact Hp]. Qed.
Lemma steps : (N.to_nat (num_bits p - 2) = deg p - 1)%nat.
Proof. unfold deg, degree. lia. Qed.
Lemma deg_S : deg p = S (deg p - 1).
Proof. pose proof (degree_pos p Hp). unfold deg. lia. Qed.
Lemma loop_tr a : trace_loop (N.to_nat (num_bits p - 2)) a p a ≡ tr (deg p) a.
Proof. rewrite trace_loop_ok, steps. rewrite deg_S at 3. cbn [tr]. reflexivity. Qed.
Lemma bn_trace_inv a t : bn_trace a p = Some t -> elem p a /\ tr (deg p) a ≡ b2 t.
Proof.
  unfold bn_trace. pose proof (loop_tr a) as Hl. set (r := trace_loop _ _ _ _) in *. intros H.
  assert (E : r = b2 t) by (destruct (N.eqb_spec r 1) as [E|]; [injection H as <-; exact E|destruct (N.eqb_spec r 0) as [E|]; [injection H as <-; exact E|discriminate]]).
  split; [|rewrite <- Hl, E; reflexivity]. apply (trace_loop_high (N.to_nat (num_bits p - 2)) a a); [|reflexivity]. fold r. rewrite E. apply b2_elem.
Qed.
Lemma bn_trace_big a : ~ elem p a -> bn_trace a p = None.
Proof. intros H. destruct (bn_trace a p) eqn:E; [|reflexivity]. apply bn_trace_inv in E. tauto. Qed.
Lemma trace_of_tr a : elem p a -> trace_of p a ≡ tr (deg p) a /\ elem p (trace_of p a).
Proof.
  intros Ha. unfold trace_of, deg. generalize (N.to_nat (degree p)) as n. induction n as [|n [IH1 IH2]]; [split; [reflexivity|apply elem_0; exact Hp]|].
  rewrite seq_S, map_app, fold_right_app. cbn [map fold_right Nat.add tr].
  assert (F : forall l z, fold_right N.lxor z l = fold_right N.lxor 0 l ⊕ z).
  { induction l as [|x l IH]; intros z; cbn [fold_right]; [symmetry; apply N.lxor_0_l|]. rewrite IH. symmetry. apply N.lxor_assoc. }
  rewrite F, N.lxor_0_r. split; [rewrite IH1, (gsqrs_frob p Hp); ring|]. apply elem_lxor; [exact IH2|]. apply gsqrs_elem; [exact Hp|exact Ha].
Qed.
Lemma b2_inj s t : b2 s ≡ b2 t -> s = t.
Proof. intros H. apply elem_eq in H; [|exact Hp|apply b2_elem|apply b2_elem]. destruct s, t; cbn [b2] in H; congruence. Qed.

(** Bit 0. *)
Lemma setbit0_lxor x : N.setbit x 0 = if N.odd x then x else x ⊕ 1.
Proof.
  destruct x as [|[x|x|]]; try reflexivity; cbn; rewrite ?N.lor_0_r; reflexivity.
Qed.
Lemma clearbit0_lxor x : N.clearbit x 0 = if N.odd x then x ⊕ 1 else x.
Proof. destruct x as [|[x|x|]]; reflexivity. Qed.
Lemma half_lxor1 x : (x ⊕ 1) / 2 = x / 2.
Proof. rewrite <- !N.div2_div. destruct x as [|[x|x|]]; reflexivity. Qed.
Lemma half_eq x y : x / 2 = y / 2 -> x = y \/ x = y ⊕ 1.
Proof.
  rewrite <- !N.div2_div. destruct x as [|[x|x|]], y as [|[y|y|]]; cbn; intros H; try discriminate; try (injection H as ->); auto.
Qed.
Lemma clear_half v : N.clearbit v 0 / 2 = v / 2.
Proof. rewrite clearbit0_lxor. destruct (N.odd v); [apply half_lxor1|reflexivity]. Qed.
Lemma set_clear v : N.setbit (N.clearbit v 0) 0 = N.clearbit v 0 ⊕ 1.
Proof. rewrite setbit0_lxor. assert (E : N.odd (N.clearbit v 0) = false); [|rewrite E; reflexivity]. destruct v as [|[v|v|]]; reflexivity. Qed.
Lemma elem_lxor1 x : elem p x -> elem p (x ⊕ 1).
Proof. intros H. apply elem_lxor; [exact H|apply elem_1; exact Hp]. Qed.
Lemma lxor11 x : x ⊕ 1 ⊕ 1 = x.
Proof. rewrite N.lxor_assoc, lxor_self. apply N.lxor_0_r. Qed.

(** The curve equation. *)
Definition curve_eq (a b x y : N) : Prop := y ⊗ y ⊕ x ⊗ y ≡ x ⊗ x ⊗ x ⊕ a ⊗ x ⊗ x ⊕ b.
Lemma sum0 u v : u ⊕ v ≡ 0 <-> u ≡ v.
Proof. split; intros H; [|rewrite H; ring]. transitivity (u ⊕ v ⊕ v); [ring|]. rewrite H. ring. Qed.
Lemma on_curveb_iff a b x y : elem p b -> (on_curveb (CURVE p a b) x y = true <-> curve_eq a b x y).
Proof.
  intros Hb. unfold on_curveb. cbn [c_p c_a c_b]. set (e := _ ⊕ _ ⊕ _).
  assert (Ee : e ≡ (y ⊗ y ⊕ x ⊗ y) ⊕ (x ⊗ x ⊗ x ⊕ a ⊗ x ⊗ x ⊕ b)) by (unfold e; rewrite (gsqr_eqm p Hp), !(gmul_eqm p Hp); ring).
  assert (Le : elem p e) by (unfold e; apply elem_lxor; [apply elem_lxor; [apply gmul_elem; exact Hp|exact Hb]|apply gmul_elem; exact Hp]).
  unfold curve_eq. rewrite <- sum0, <- Ee, N.eqb_eq. split; [intros ->; reflexivity|]. apply elem_eqm0; assumption.
Qed.
Lemma on_curve_iff a b x y : elem p b -> (on_curve (CURVE p a b) x y <-> elem p x /\ elem p y /\ curve_eq a b x y).
Proof.
  intros Hb. unfold on_curve. cbn [c_p c_a c_b].
  assert (El : gsqr p y ⊕ gmul p x y ≡ y ⊗ y ⊕ x ⊗ y) by (rewrite (gsqr_eqm p Hp), (gmul_eqm p Hp); reflexivity).
  assert (Er : gmul p x (gsqr p x) ⊕ gmul p a (gsqr p x) ⊕ b ≡ x ⊗ x ⊗ x ⊕ a ⊗ x ⊗ x ⊕ b) by (rewrite !(gmul_eqm p Hp), !(gsqr_eqm p Hp); ring).
  unfold curve_eq. rewrite <- El, <- Er. split; intros [H1 [H2 H3]]; (split; [exact H1|]; split; [exact H2|]); [rewrite H3; reflexivity|].
  apply (elem_eq p Hp); [| |exact H3]; repeat apply elem_lxor; try apply gmul_elem; assumption.
Qed.

(** Whatever expands is on the curve, for any p. *)
Lemma expand_sound solve s a b P : elem p b -> expand solve s (CURVE p a b) = Some P -> exists x y, P = Some (x, y) /\ on_curve (CURVE p a b) x y.
Proof.
  intros Hb. unfold expand, set_affine. cbn [c_p c_a c_b]. destruct (_ <? _); [discriminate|].
  destruct (N.eqb_spec (be_val s) 0) as [E|E].
  - rewrite E. set (y := gsqrt p b). destruct (on_curveb (CURVE p a b) 0 y) eqn:Ec; [|discriminate]. intros [= <-]. exists 0, y. split; [reflexivity|].
    apply on_curve_iff; [exact Hb|]. apply on_curveb_iff in Ec; [|exact Hb]. split; [apply elem_0; exact Hp|]. split; [|exact Ec].
    unfold y, gsqrt. apply gsqrs_elem; [exact Hp|]. apply pmod_elem. exact Hp.
  - destruct (bn_trace (N.clearbit (be_val s) 0) p) as [t|] eqn:Et; [|discriminate]. apply bn_trace_inv in Et. destruct Et as [He _].
    setx x. assert (Hx : elem p x) by (unfold x; rewrite set_clear; destruct (_ || _); [apply elem_lxor1|]; exact He).
    destruct (ginv _ _) as [i|]; [|discriminate]. destruct (solve _ _) as [z|]; [|discriminate].
    set (y := gmul p _ x). destruct (on_curveb (CURVE p a b) x y) eqn:Ec; [|discriminate]. intros [= <-]. exists x, y. split; [reflexivity|].
    apply on_curve_iff; [exact Hb|]. apply on_curveb_iff in Ec; [|exact Hb]. split; [exact Hx|]. split; [apply gmul_elem; exact Hp|exact Ec].
Qed.
Lemma expand_big solve s a b : 2 ^ degree p <= be_val s -> expand solve s (CURVE p a b) = None.
Proof.
  intros H. unfold expand. cbn [c_p c_a c_b]. destruct (_ <? _); [reflexivity|].
  destruct (N.eqb_spec (be_val s) 0) as [E|E]; [pose proof (elem_0 p Hp) as E0; unfold elem in E0; lia|].
  rewrite bn_trace_big; [reflexivity|]. intros He. apply N.le_ngt in H. apply H. change (elem p (be_val s)).
  rewrite clearbit0_lxor in He. destruct (N.odd (be_val s)); [|exact He]. apply elem_lxor1 in He. rewrite lxor11 in He. exact He.
Qed.

(** The other way, for fields of odd degree. *)
Hypothesis Hirr : irreducible p.
Hypothesis Hodd : Nat.odd (deg p) = true.
Lemma bn_trace_ok a : elem p a -> exists t, bn_trace a p = Some t /\ tr (deg p) a ≡ b2 t.
Proof.
  intros Ha. destruct (tr_bool p Hp Hirr a) as [t Ht]. exists t. split; [|exact Ht]. unfold bn_trace.
  assert (E : trace_loop (N.to_nat (num_bits p - 2)) a p a = b2 t).
  { apply (elem_eq p Hp); [apply trace_loop_elem; exact Ha|apply b2_elem|]. rewrite loop_tr. exact Ht. }
  rewrite E. destruct t; reflexivity.
Qed.
Lemma tr1 : tr (deg p) 1 ≡ 1.
Proof. rewrite (tr_1 p Hp), Hodd. reflexivity. Qed.
Lemma tr_flip x : tr (deg p) (x ⊕ 1) ≡ tr (deg p) x ⊕ 1.
Proof. rewrite (tr_add p Hp), tr1. reflexivity. Qed.
Lemma tr_unique x y : (x = y \/ x = y ⊕ 1) -> tr (deg p) x ≡ tr (deg p) y -> x = y.
Proof.
  intros [H|H] E; [exact H|]. exfalso. subst x. rewrite tr_flip in E. apply (one_not_zero p Hp).
  transitivity (tr (deg p) y ⊕ 1 ⊕ tr (deg p) y); [ring|]. rewrite E. ring.
Qed.
Lemma tr_a a : a = 0 \/ a = 1 -> tr (deg p) a ≡ a.
Proof. intros [-> | ->]; [apply (tr_0 p Hp)|apply tr1]. Qed.
Lemma pick_x v a t : a = 0 \/ a = 1 -> bn_trace (N.clearbit v 0) p = Some t ->
  let x := if (t && (a =? 0)) || (negb t && (a =? 1)) then N.setbit (N.clearbit v 0) 0 else N.clearbit v 0 in
  elem p x /\ x / 2 = v / 2 /\ tr (deg p) x ≡ a.
Proof.
  intros Ha Ht. apply bn_trace_inv in Ht. destruct Ht as [He Ht]. rewrite set_clear. cbv zeta.
  pose proof (clear_half v) as Hc.
  destruct Ha as [-> | ->], t; cbn [andb orb negb N.eqb Pos.eqb]; change (0 =? 0) with true; change (0 =? 1) with false; change (1 =? 0) with false; change (1 =? 1) with true; cbn [andb orb negb b2] in *;
    rewrite ?half_lxor1; (split; [try apply elem_lxor1; exact He|]); (split; [exact Hc|]); rewrite ?tr_flip, Ht; ring.
Qed.
Lemma quad_unique z w : elem p z -> elem p w -> z ⊗ z ⊕ z ≡ w ⊗ w ⊕ w -> z = w \/ z = w ⊕ 1.
Proof.
  intros Hz Hw H. assert (E : (z ⊕ w) ⊗ (z ⊕ w ⊕ 1) ≡ 0).
  { transitivity ((z ⊗ z ⊕ z) ⊕ (w ⊗ w ⊕ w)); [ring|]. rewrite H. ring. }
  destruct (integral p Hp Hirr _ _ E) as [E1|E1]; [left|right]; apply (elem_eq p Hp); try assumption; try (apply elem_lxor1; assumption); apply sum0; rewrite <- E1; ring.
Qed.

Lemma stands_iff solve s a b x y : good_solver p solve -> (a = 0 \/ a = 1) -> elem p b ->
  (expand solve s (CURVE p a b) = Some (Some (x, y)) <-> field_size (CURVE p a b) <= N.of_nat (length s) /\ stands_for (CURVE p a b) s x y).
Proof.
  intros [Hs1 Hs2] Ha Hb. unfold stands_for, compressible. cbn [c_p c_a c_b].
  assert (Hea : elem p a) by (destruct Ha; subst a; [apply elem_0|apply elem_1]; exact Hp).
  split.
  - intros H. destruct (expand_sound _ _ _ _ _ Hb H) as [x' [y' [E Hon]]]. injection E as <- <-.
    revert H. unfold expand. cbn [c_p c_a c_b]. destruct (N.ltb_spec (N.of_nat (length s)) (field_size (CURVE p a b))) as [|Hl]; [discriminate|]. intros H. split; [exact Hl|]. split; [exact Hon|].
    destruct (N.eqb_spec (be_val s) 0) as [Ev|Ev].
    + left. split; [exact Ev|]. unfold set_affine in H. destruct (on_curveb _ _ _); [|discriminate]. injection H as E1 _. congruence.
    + right. split; [exact Ev|]. destruct (bn_trace (N.clearbit (be_val s) 0) p) as [t|] eqn:Et; [|discriminate].
      pose proof (pick_x _ a t Ha Et) as Hx. cbv zeta in Hx. setx x0. destruct Hx as [Hx1 [Hx2 Hx3]].
      destruct (ginv p (gsqr p x0)) as [i|] eqn:Ei; [|discriminate]. apply (ginv_inv p Hp Hirr) in Ei.
      destruct (solve p _) as [z|] eqn:Ez; [|discriminate]. apply Hs1 in Ez; [|apply gmul_elem; exact Hp]. destruct Ez as [Ez1 Ez2].
      destruct (bn_trace_ok z Ez1) as [tz [Et1 Et2]]. rewrite Et1 in H. unfold set_affine in H.
      set (z' := if xorb _ _ then _ else z) in *. destruct (on_curveb _ _ _); [|discriminate]. injection H as E1 E2. subst x.
      assert (Hz' : elem p z') by (unfold z'; destruct (xorb _ _); [apply elem_lxor1|]; exact Ez1).
      assert (Tz' : tr (deg p) z' ≡ b2 (N.testbit (be_val s) 0)).
      { unfold z'. destruct (N.testbit (be_val s) 0), tz; cbn [xorb]; rewrite ?tr_flip, Et2; cbn [b2]; ring. }
      split.
      * intros E0. destruct Ei as [_ Ei]. rewrite E0 in Ei. apply (one_not_zero p Hp). rewrite <- Ei, (gsqr_eqm p Hp). ring.
      * split; [|split; [symmetry; exact Hx2|]].
        -- destruct (trace_of_tr x0 Hx1) as [T1 T2], (trace_of_tr a Hea) as [T3 T4]. apply (elem_eq p Hp); [exact T2|exact T4|]. rewrite T1, T3, Hx3. symmetry. apply tr_a. exact Ha.
        -- exists z'. split; [exact Hz'|]. split; [exact E2|]. destruct (trace_of_tr z' Hz') as [T1 T2].
           assert (Em : be_val s mod 2 = b2 (N.testbit (be_val s) 0)).
           { rewrite N.bit0_eqb. destruct (N.eqb_spec (be_val s mod 2) 1); cbn [b2]; lia. }
           rewrite Em. apply (elem_eq p Hp); [exact T2|apply b2_elem|]. rewrite T1. exact Tz'.
  - intros [Hl [Hon H]]. pose proof (proj1 (on_curve_iff a b x y Hb) Hon) as [Hex [Hey Heq]]. unfold expand. cbn [c_p c_a c_b].
    replace (N.of_nat (length s) <? field_size (CURVE p a b)) with false by lia.
    assert (Hset : set_affine (CURVE p a b) x y = Some (Some (x, y))).
    { unfold set_affine. rewrite (proj2 (on_curveb_iff a b x y Hb) Heq). reflexivity. }
    destruct H as [[Ev E0]|[Ev [H0 [Hc [Hh [z [Hz [Hy Ht]]]]]]]].
    + rewrite Ev. change (0 =? 0) with true. cbv iota. subst x. replace (gsqrt p b) with y; [exact Hset|].
      apply (elem_eq p Hp); [exact Hey|apply gsqrt_elem; exact Hp|]. apply (sq_inj p Hp Hirr). rewrite (gsqrt_sq p Hp Hirr).
      unfold curve_eq in Heq. transitivity (y ⊗ y ⊕ 0 ⊗ y); [ring|]. rewrite Heq. ring.
    + replace (be_val s =? 0) with false by lia.
      assert (Hcl : elem p (N.clearbit (be_val s) 0)).
      { destruct (half_eq (N.clearbit (be_val s) 0) x) as [-> | ->]; [rewrite clear_half; exact Hh|exact Hex|apply elem_lxor1; exact Hex]. }
      destruct (bn_trace_ok _ Hcl) as [t [Et _]]. rewrite Et.
      pose proof (pick_x _ a t Ha Et) as Hx. cbv zeta in Hx. setx x0. destruct Hx as [Hx1 [Hx2 Hx3]].
      assert (Ex : x0 = x).
      { apply tr_unique; [apply half_eq; congruence|]. destruct (trace_of_tr x Hex) as [T1 _], (trace_of_tr a Hea) as [T3 _]. rewrite <- T1, Hc, T3, Hx3. symmetry. apply tr_a. exact Ha. }
      rewrite Ex in *. clear x0 Ex Hx1 Hx2.
      assert (Hx0 : ~ x ≡ 0) by (intros E; apply H0; apply (elem_eqm0 p Hp); assumption).
      assert (Hxx : ~ gsqr p x ≡ 0) by (rewrite (gsqr_eqm p Hp); intros E; destruct (integral p Hp Hirr _ _ E); contradiction).
      destruct (ginv_ok p Hp Hirr _ Hxx) as [i [Ei [Ei1 Ei2]]]. rewrite Ei.
      set (w0 := if a =? 1 then _ else _). assert (Ew0 : w0 ⊕ b ≡ x ⊗ x ⊗ x ⊕ a ⊗ x ⊗ x ⊕ b).
      { unfold w0. destruct Ha as [-> | ->]; [change (0 =? 1) with false|change (1 =? 1) with true]; cbv iota; rewrite !(gmul_eqm p Hp), !(gsqr_eqm p Hp); ring. }
      set (w := gmul p (w0 ⊕ b) i).
      assert (Ezw : gsqr p z ⊕ z = w).
      { apply (elem_eq p Hp); [apply elem_lxor; [apply gmul_elem; exact Hp|exact Hz]|apply gmul_elem; exact Hp|].
        unfold w. rewrite (gmul_eqm p Hp), Ew0. unfold curve_eq in Heq. rewrite <- Heq, <- Hy, (gmul_eqm p Hp), (gsqr_eqm p Hp).
        rewrite (gsqr_eqm p Hp) in Ei2. transitivity ((z ⊗ z ⊕ z) ⊗ (x ⊗ x ⊗ i)); [rewrite Ei2; ring|ring]. }
      destruct (solve p w) as [z1|] eqn:Ez; [|exfalso; apply (Hs2 w z); [apply gmul_elem; exact Hp|exact Hz|exact Ezw|exact Ez]].
      apply Hs1 in Ez; [|apply gmul_elem; exact Hp]. destruct Ez as [Ez1 Ez2].
      destruct (bn_trace_ok z1 Ez1) as [tz [Et1 Et2]]. rewrite Et1.
      set (z' := if xorb _ _ then _ else z1) in *.
      assert (Ez' : z' = z).
      { apply tr_unique.
        - assert (Q : z1 = z \/ z1 = z ⊕ 1) by (apply quad_unique; [exact Ez1|exact Hz|]; rewrite <- !(gsqr_eqm p Hp), Ez2, Ezw; reflexivity).
          unfold z'. destruct (xorb _ _), Q as [-> | ->]; auto. left. apply lxor11.
        - assert (Em : be_val s mod 2 = b2 (N.testbit (be_val s) 0)).
          { rewrite N.bit0_eqb. destruct (N.eqb_spec (be_val s mod 2) 1); cbn [b2]; lia. }
          destruct (trace_of_tr z Hz) as [T1 _]. rewrite <- T1, Ht, Em.
          unfold z'. destruct (N.testbit (be_val s) 0), tz; cbn [xorb]; rewrite ?tr_flip, Et2; cbn [b2]; ring. }
      rewrite Ez', Hy. exact Hset.
Qed.

Lemma odd_solver : good_solver p solve_quad.
Proof.
  split.
  - intros a z Ha H. apply (solve_quad_sound p Hp) in H. destruct H as [H1 H2]. split; [exact H1|].
    apply (elem_eq p Hp); [apply elem_lxor; [apply gmul_elem; exact Hp|exact H1]|exact Ha|]. rewrite (gsqr_eqm p Hp). exact H2.
  - intros a z Ha Hz H. destruct (solve_quad_complete p Hp Hirr a Hodd) as [z' E]; [|rewrite E; discriminate].
    apply (quad_trace p Hp Hirr z). rewrite <- (gsqr_eqm p Hp), H. reflexivity.
Qed.
End Any.
