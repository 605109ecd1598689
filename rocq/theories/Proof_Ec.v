(** The points of a binary curve form a commutative group. *)
From Coq Require Import Lia Ring Setoid Morphisms.
From Verif Require Import Base Lib Model_Gf2m Model_Compress Model_Ec Spec_Gf2m Spec_Compress Proof_Gf2 Proof_Field Proof_Compress.

Section Ec.
Variables p a b : N.
Hypothesis Hp : 1 < p.
Notation "u ≡ v" := (eqm p u v) (at level 70).
#[local] Instance k1 : Equivalence (eqm p) := eqm_equiv p.
#[local] Instance k2 : Proper (eqm p ==> eqm p ==> eqm p) N.lxor := lxor_eqm p.
#[local] Instance k3 : Proper (eqm p ==> eqm p ==> eqm p) clmul := clmul_eqm p Hp.
Add Ring Rp4 : (Rp_theory p) (morphism (Rp_morph p), setoid (eqm_equiv p) (Rp_ext p Hp)).
Hypothesis Hirr : irreducible p.
Hypothesis Ha : elem p a.
Hypothesis Hb : elem p b.
Hypothesis Hb0 : b <> 0.
Notation c := (CURVE p a b).

(** From H : s ≡ t conclude a linear consequence. *)
Lemma zero_of s t : s ≡ t -> s ⊕ t ≡ 0.
Proof. intros H. rewrite H. ring. Qed.
Lemma eq_of s t : s ⊕ t ≡ 0 -> s ≡ t.
Proof. apply sum0. exact Hp. Qed.
Lemma comb1 u v k s t : s ≡ t -> u ⊕ v ≡ k ⊗ (s ⊕ t) -> u ≡ v.
Proof. intros H E. apply eq_of. rewrite E, (zero_of _ _ H). ring. Qed.
Lemma comb2 u v k s t k' s' t' : s ≡ t -> s' ≡ t' -> u ⊕ v ≡ k ⊗ (s ⊕ t) ⊕ k' ⊗ (s' ⊕ t') -> u ≡ v.
Proof. intros H H' E. apply eq_of. rewrite E, (zero_of _ _ H), (zero_of _ _ H'). ring. Qed.
Lemma comb3 u v k s t k' s' t' k2 s2 t2 : s ≡ t -> s' ≡ t' -> s2 ≡ t2 -> u ⊕ v ≡ k ⊗ (s ⊕ t) ⊕ k' ⊗ (s' ⊕ t') ⊕ k2 ⊗ (s2 ⊕ t2) -> u ≡ v.
Proof. intros H H' H2 E. apply eq_of. rewrite E, (zero_of _ _ H), (zero_of _ _ H'), (zero_of _ _ H2). ring. Qed.
Lemma nz x : elem p x -> x <> 0 -> ~ x ≡ 0.
Proof. intros H H0 E. apply H0. apply (elem_eqm0 p Hp); assumption. Qed.
Lemma cancel k u v : ~ k ≡ 0 -> k ⊗ u ≡ k ⊗ v -> u ≡ v.
Proof. intros H E. apply (unit_cancel p Hp k); [apply (unit_nonzero p Hp Hirr); exact H|exact E]. Qed.

Definition pt (P : point) : Prop := match P with None => True | Some (x, y) => elem p x /\ elem p y /\ curve_eq p a b x y end.
Lemma pt_on P : pt P <-> match P with None => True | Some (x, y) => on_curve c x y end.
Proof. destruct P as [[x y]|]; [|reflexivity]. symmetry. apply on_curve_iff; assumption. Qed.

(** The slope of two points. *)
Definition sl (x1 y1 x2 y2 l : N) : Prop :=
  l ⊗ (x1 ⊕ x2) ≡ y1 ⊕ y2 /\
  y2 ≡ l ⊗ l ⊗ (x1 ⊕ x2) ⊕ l ⊗ x1 ⊕ x1 ⊗ x1 ⊕ x1 ⊗ x2 ⊕ x2 ⊗ x2 ⊕ a ⊗ (x1 ⊕ x2).
Definition sumx (x1 x2 l : N) : N := l ⊗ l ⊕ l ⊕ x1 ⊕ x2 ⊕ a.
Definition sumy (x2 y2 x3 l : N) : N := l ⊗ (x2 ⊕ x3) ⊕ x3 ⊕ y2.

Lemma sl_sym x1 y1 x2 y2 l : sl x1 y1 x2 y2 l -> sl x2 y2 x1 y1 l.
Proof.
  intros [H1 H2]. split; [rewrite (N.lxor_comm x2), (N.lxor_comm y2); exact H1|].
  apply (comb2 _ _ 1 _ _ 1 _ _ H1 H2). ring.
Qed.

Lemma same_x x y1 y2 : pt (Some (x, y1)) -> pt (Some (x, y2)) -> y2 = y1 \/ y2 = x ⊕ y1.
Proof.
  intros [Hx [Hy1 E1]] [_ [Hy2 E2]]. unfold curve_eq in *.
  assert (E : (y1 ⊕ y2) ⊗ (y1 ⊕ y2 ⊕ x) ≡ 0) by (apply (comb2 _ _ 1 _ _ 1 _ _ E1 E2); ring).
  destruct (integral p Hp Hirr _ _ E) as [E0|E0]; [left|right]; (apply (elem_eq p Hp); [exact Hy2|try apply elem_lxor; assumption|]); apply (comb1 _ _ 1 _ _ E0); ring.
Qed.

Definition opp (x1 y1 x2 y2 : N) : Prop := x2 = x1 /\ y2 = x1 ⊕ y1.
Lemma opp_dec x1 y1 x2 y2 : opp x1 y1 x2 y2 \/ ~ opp x1 y1 x2 y2.
Proof. unfold opp. destruct (N.eq_dec x2 x1), (N.eq_dec y2 (x1 ⊕ y1)); tauto. Qed.
Lemma dbl_nz x1 y1 x2 y2 : pt (Some (x1, y1)) -> pt (Some (x2, y2)) -> ~ opp x1 y1 x2 y2 -> x2 = x1 -> y2 = y1 /\ x1 <> 0.
Proof.
  intros P1 P2 Hn ->. destruct (same_x x1 y1 y2 P1 P2) as [E|E]; [|exfalso; apply Hn; split; [reflexivity|exact E]].
  split; [exact E|]. intros E0. apply Hn. split; [reflexivity|]. rewrite E, E0, N.lxor_0_l. reflexivity.
Qed.

Lemma sl_unique x1 y1 x2 y2 l k : pt (Some (x1, y1)) -> pt (Some (x2, y2)) -> ~ opp x1 y1 x2 y2 -> sl x1 y1 x2 y2 l -> sl x1 y1 x2 y2 k -> l ≡ k.
Proof.
  intros P1 P2 Hn [L1 L2] [K1 K2]. destruct (N.eq_dec x2 x1) as [E|E].
  - destruct (dbl_nz _ _ _ _ P1 P2 Hn E) as [_ H0]. subst x2. apply (cancel x1); [apply nz; [apply P1|exact H0]|].
    apply (comb2 _ _ 1 _ _ 1 _ _ L2 K2). ring.
  - apply (cancel (x1 ⊕ x2)).
    + intros E0. apply E. symmetry. apply (elem_eq p Hp); [apply P1|apply P2|]. apply eq_of. exact E0.
    + apply (comb2 _ _ 1 _ _ 1 _ _ L1 K1). ring.
Qed.

Lemma sum_on x1 y1 x2 y2 l x3 y3 : pt (Some (x1, y1)) -> pt (Some (x2, y2)) -> sl x1 y1 x2 y2 l -> elem p x3 -> elem p y3 -> x3 ≡ sumx x1 x2 l -> y3 ≡ sumy x2 y2 x3 l -> pt (Some (x3, y3)).
Proof.
  intros [X1 [Y1 E1]] [X2 [Y2 E2]] [S1 S2] X3 Y3 E3 E4. split; [exact X3|]. split; [exact Y3|]. unfold curve_eq, sumx, sumy in *.
  rewrite E4. clear E4.
  apply (comb3 _ _ 1 _ _ (x2 ⊕ x3) _ _ ((x2 ⊕ x3) ⊗ (x1 ⊕ x3)) _ _ E2 S2 E3). ring.
Qed.

Lemma gdiv_ok u v : elem p v -> v <> 0 -> exists q, gdiv p u v = q /\ elem p q /\ q ⊗ v ≡ u.
Proof.
  intros Hv H0. destruct (ginv_ok p Hp Hirr v) as [i [Ei [Hi E]]]; [apply nz; assumption|].
  exists (gmul p u i). unfold gdiv. rewrite Ei. split; [reflexivity|]. split; [apply gmul_elem; exact Hp|].
  rewrite (gmul_eqm p Hp). apply (comb1 _ _ u _ _ E). ring.
Qed.
Lemma lxor_ne u v : u <> v -> u ⊕ v <> 0.
Proof. intros H E. apply H. apply N.lxor_eq. exact E. Qed.

Lemma padd_opp x1 y1 x2 y2 : pt (Some (x1, y1)) -> pt (Some (x2, y2)) -> opp x1 y1 x2 y2 -> padd c (Some (x1, y1)) (Some (x2, y2)) = None.
Proof.
  intros P1 P2 [-> ->]. cbn [padd c_p c_a c_b]. rewrite N.eqb_refl. cbn [negb].
  destruct (N.eqb_spec x1 0) as [E|E]; [rewrite orb_true_r; reflexivity|].
  destruct (N.eqb_spec y1 (x1 ⊕ y1)) as [E'|E']; [exfalso|reflexivity].
  apply E. rewrite <- (N.lxor_0_r x1), <- (N.lxor_nilpotent y1), <- N.lxor_assoc, <- E'. reflexivity.
Qed.
Lemma padd_sl x1 y1 x2 y2 : pt (Some (x1, y1)) -> pt (Some (x2, y2)) -> ~ opp x1 y1 x2 y2 ->
  exists l x3 y3, sl x1 y1 x2 y2 l /\ padd c (Some (x1, y1)) (Some (x2, y2)) = Some (x3, y3) /\
  elem p x3 /\ elem p y3 /\ x3 ≡ sumx x1 x2 l /\ y3 ≡ sumy x2 y2 x3 l.
Proof.
  intros P1 P2 Hn. cbn [padd c_p c_a c_b]. destruct (N.eqb_spec x1 x2) as [E|E]; cbn [negb].
  - destruct (dbl_nz _ _ _ _ P1 P2 Hn (eq_sym E)) as [Ey H0]. subst x2 y2. rewrite N.eqb_refl. cbn [negb orb].
    destruct (N.eqb_spec x1 0) as [E0|_]; [contradiction|]. destruct P1 as [X1 [Y1 E1]].
    destruct (gdiv_ok y1 x1 X1 H0) as [q [-> [Hq Eq]]].
    exists (q ⊕ x1). eexists. eexists. split; [|split; [reflexivity|]].
    + split; [rewrite (N.lxor_nilpotent x1), (N.lxor_nilpotent y1); ring|]. apply (comb1 _ _ 1 _ _ Eq). ring.
    + assert (X3 : elem p (gsqr p (q ⊕ x1) ⊕ (q ⊕ x1) ⊕ a)) by (repeat apply elem_lxor; try assumption; apply gmul_elem; exact Hp).
      split; [exact X3|]. split; [repeat apply elem_lxor; try assumption; apply gmul_elem; exact Hp|]. unfold sumx, sumy. split.
      * rewrite (gsqr_eqm p Hp). ring.
      * rewrite (gmul_eqm p Hp). ring.
  - destruct P1 as [X1 [Y1 E1]], P2 as [X2 [Y2 E2]]. unfold curve_eq in *.
    destruct (gdiv_ok (y1 ⊕ y2) (x1 ⊕ x2)) as [q [-> [Hq Eq]]]; [apply elem_lxor; assumption|apply lxor_ne; exact E|].
    exists q. eexists. eexists. split; [|split; [reflexivity|]].
    + split; [exact Eq|]. apply (cancel (x1 ⊕ x2)).
      * intros E0. apply E. apply (elem_eq p Hp); [assumption..|]. apply eq_of. exact E0.
      * apply (comb3 _ _ (q ⊗ (x1 ⊕ x2) ⊕ y1 ⊕ y2 ⊕ x1) _ _ 1 _ _ 1 _ _ Eq E1 E2). ring.
    + assert (X3 : elem p (gsqr p q ⊕ a ⊕ q ⊕ (x1 ⊕ x2))) by (repeat apply elem_lxor; try assumption; apply gmul_elem; exact Hp).
      split; [exact X3|]. split; [repeat apply elem_lxor; try assumption; apply gmul_elem; exact Hp|]. unfold sumx, sumy. split.
      * rewrite (gsqr_eqm p Hp). ring.
      * rewrite (gmul_eqm p Hp). ring.
Qed.
Lemma padd_by x1 y1 x2 y2 l x3 y3 : pt (Some (x1, y1)) -> pt (Some (x2, y2)) -> ~ opp x1 y1 x2 y2 -> sl x1 y1 x2 y2 l ->
  elem p x3 -> elem p y3 -> x3 ≡ sumx x1 x2 l -> y3 ≡ sumy x2 y2 x3 l -> padd c (Some (x1, y1)) (Some (x2, y2)) = Some (x3, y3).
Proof.
  intros P1 P2 Hn S X3 Y3 Ex Ey. destruct (padd_sl x1 y1 x2 y2 P1 P2 Hn) as [k [x [y [K [-> [X [Y [Fx Fy]]]]]]]].
  pose proof (sl_unique _ _ _ _ _ _ P1 P2 Hn S K) as E. unfold sumx, sumy in *.
  assert (E3 : x = x3) by (apply (elem_eq p Hp); [assumption..|]; rewrite Fx, Ex, E; reflexivity). subst x3.
  f_equal. f_equal. apply (elem_eq p Hp); [assumption..|]. rewrite Fy, Ey, E. reflexivity.
Qed.

Lemma padd_pt P Q : pt P -> pt Q -> pt (padd c P Q).
Proof.
  intros HP HQ. destruct P as [[x1 y1]|]; [|exact HQ]. destruct Q as [[x2 y2]|]; [|exact HP].
  destruct (opp_dec x1 y1 x2 y2) as [O|O]; [rewrite padd_opp by assumption; exact I|].
  destruct (padd_sl _ _ _ _ HP HQ O) as [l [x3 [y3 [S [-> [X [Y [Ex Ey]]]]]]]]. exact (sum_on _ _ _ _ l _ _ HP HQ S X Y Ex Ey).
Qed.
Lemma pneg_pt P : pt P -> pt (pneg P).
Proof.
  destruct P as [[x y]|]; [|exact (fun _ => I)]. intros [X [Y E]]. split; [exact X|]. split; [apply elem_lxor; assumption|].
  unfold curve_eq in *. apply (comb1 _ _ 1 _ _ E). ring.
Qed.
Lemma pneg_neg P : pneg (pneg P) = P.
Proof. destruct P as [[x y]|]; [|reflexivity]. cbn. rewrite <- N.lxor_assoc, N.lxor_nilpotent, N.lxor_0_l. reflexivity. Qed.
Lemma opp_sym x1 y1 x2 y2 : opp x1 y1 x2 y2 -> opp x2 y2 x1 y1.
Proof. intros [-> ->]. split; [reflexivity|]. rewrite <- N.lxor_assoc, N.lxor_nilpotent, N.lxor_0_l. reflexivity. Qed.
Lemma padd_comm P Q : pt P -> pt Q -> padd c P Q = padd c Q P.
Proof.
  intros HP HQ. destruct P as [[x1 y1]|]; [|destruct Q as [[? ?]|]; reflexivity]. destruct Q as [[x2 y2]|]; [|reflexivity].
  destruct (opp_dec x1 y1 x2 y2) as [O|O]; [rewrite !padd_opp; [reflexivity| | | | | |]; try assumption; apply opp_sym; exact O|].
  destruct (padd_sl _ _ _ _ HP HQ O) as [l [x3 [y3 [S [-> [X [Y [Ex Ey]]]]]]]]. symmetry.
  apply (padd_by _ _ _ _ l); try assumption.
  - intros O'. apply O. apply opp_sym. exact O'.
  - apply sl_sym. exact S.
  - rewrite Ex. unfold sumx. ring.
  - rewrite Ey. unfold sumy. destruct S as [S1 _]. apply (comb1 _ _ 1 _ _ S1). ring.
Qed.
Lemma padd_pneg P : pt P -> padd c P (pneg P) = None.
Proof.
  intros H. destruct P as [[x y]|]; [|reflexivity]. apply padd_opp; [exact H|exact (pneg_pt _ H)|]. split; reflexivity.
Qed.
Lemma opp_iff P Q : pt P -> pt Q -> (padd c P Q = None <-> Q = pneg P).
Proof.
  intros HP HQ. split; [|intros ->; apply padd_pneg; exact HP].
  destruct P as [[x1 y1]|]; [|cbn; intros ->; reflexivity]. destruct Q as [[x2 y2]|]; [|discriminate].
  destruct (opp_dec x1 y1 x2 y2) as [O|O]; [destruct O as [-> ->]; reflexivity|].
  destruct (padd_sl _ _ _ _ HP HQ O) as [l [x3 [y3 [_ [-> _]]]]]. discriminate.
Qed.
Lemma pneg_padd P Q : pt P -> pt Q -> pneg (padd c P Q) = padd c (pneg P) (pneg Q).
Proof.
  intros HP HQ. destruct P as [[x1 y1]|]; [|destruct Q as [[? ?]|]; reflexivity]. destruct Q as [[x2 y2]|]; [|reflexivity].
  destruct (opp_dec x1 y1 x2 y2) as [O|O].
  - rewrite padd_opp by assumption. destruct O as [-> ->]. symmetry. apply opp_iff; try (apply pneg_pt; assumption). cbn. reflexivity.
  - destruct (padd_sl _ _ _ _ HP HQ O) as [l [x3 [y3 [S [-> [X [Y [Ex Ey]]]]]]]]. symmetry. destruct S as [S1 S2].
    apply (padd_by _ _ _ _ (l ⊕ 1)).
    + exact (pneg_pt _ HP).
    + exact (pneg_pt _ HQ).
    + intros [E1 E2]. apply O. split; [exact E1|]. subst x2. rewrite <- N.lxor_assoc, N.lxor_nilpotent, N.lxor_0_l in E2.
      rewrite <- E2, <- N.lxor_assoc, N.lxor_nilpotent, N.lxor_0_l. reflexivity.
    + split; [apply (comb1 _ _ 1 _ _ S1); ring|]. apply (comb1 _ _ 1 _ _ S2). ring.
    + exact X.
    + apply elem_lxor; assumption.
    + rewrite Ex. unfold sumx. ring.
    + rewrite Ey. unfold sumy. ring.
Qed.
(** (P + Q) - Q = P *)
Lemma padd_sub P Q : pt P -> pt Q -> padd c (padd c P Q) (pneg Q) = P.
Proof.
  intros HP HQ. destruct P as [[x1 y1]|]; [|cbn [padd]; apply padd_pneg; exact HQ].
  destruct Q as [[x2 y2]|]; [|reflexivity].
  destruct (opp_dec x1 y1 x2 y2) as [O|O].
  - rewrite padd_opp by assumption. destruct O as [-> ->]. exact (pneg_neg (Some (x1, y1))).
  - destruct (padd_sl _ _ _ _ HP HQ O) as [l [x3 [y3 [S [-> [X [Y [Ex Ey]]]]]]]].
    pose proof (sum_on _ _ _ _ l _ _ HP HQ S X Y Ex Ey) as H3. destruct S as [S1 S2]. unfold sumx, sumy in *.
    assert (T1 : (l ⊕ 1) ⊗ (x3 ⊕ x2) ≡ y3 ⊕ (x2 ⊕ y2)) by (rewrite Ey; ring).
    assert (T2 : x2 ⊕ y2 ≡ (l ⊕ 1) ⊗ (l ⊕ 1) ⊗ (x3 ⊕ x2) ⊕ (l ⊕ 1) ⊗ x3 ⊕ x3 ⊗ x3 ⊕ x3 ⊗ x2 ⊕ x2 ⊗ x2 ⊕ a ⊗ (x3 ⊕ x2)).
    { apply (comb2 _ _ 1 _ _ (x1 ⊕ x3) _ _ S2 Ex). ring. }
    apply (padd_by _ _ _ _ (l ⊕ 1)); try assumption.
    + exact (pneg_pt _ HQ).
    + intros [E1 E2]. subst x3. apply Hb0. apply (elem_eqm0 p Hp); [exact Hb|].
      assert (E0 : x2 ≡ 0). { assert (E3 : y2 = y3). { apply (f_equal (N.lxor x2)) in E2. rewrite <- !N.lxor_assoc, !N.lxor_nilpotent, !N.lxor_0_l in E2. exact E2. }
        subst y3. apply (comb1 _ _ 1 _ _ Ey). ring. }
      destruct HQ as [_ [_ HQ]]. unfold curve_eq in HQ. rewrite E0 in HQ, S2, Ex.
      assert (E4 : y2 ≡ 0) by (apply (comb2 _ _ 1 _ _ x1 _ _ S2 Ex); ring).
      rewrite E4 in HQ. apply (comb1 _ _ 1 _ _ HQ). ring.
    + split; assumption.
    + apply HP.
    + apply HP.
    + apply (comb1 _ _ 1 _ _ Ex). unfold sumx. ring.
    + unfold sumy. apply (comb1 _ _ 1 _ _ S1). ring.
Qed.

(** Associativity: the identities behind it. *)
Definition yl (x1 x2 l : N) : N := l ⊗ l ⊗ (x1 ⊕ x2) ⊕ l ⊗ x1 ⊕ x1 ⊗ x1 ⊕ x1 ⊗ x2 ⊕ x2 ⊗ x2 ⊕ a ⊗ (x1 ⊕ x2).
Definition dA (x1 x2 x3 l : N) : N := sumx x1 x2 l ⊕ x3.
Definition nA (x1 x2 x3 l m : N) : N := l ⊗ (x2 ⊕ sumx x1 x2 l) ⊕ sumx x1 x2 l ⊕ m ⊗ (x2 ⊕ x3).

Lemma slopes_generic x1 x2 x3 l m mu nu : yl x1 x2 l ≡ yl x3 x2 m ->
  mu ⊗ dA x1 x2 x3 l ≡ nA x1 x2 x3 l m -> nu ⊗ dA x3 x2 x1 m ≡ nA x3 x2 x1 m l ->
  ~ dA x1 x2 x3 l ≡ 0 -> ~ dA x3 x2 x1 m ≡ 0 -> mu ⊕ nu ≡ l ⊕ m.
Proof.
  intros R M V HA HB. apply (cancel _ _ _ HA), (cancel _ _ _ HB).
  apply (comb3 _ _ (dA x3 x2 x1 m) _ _ (dA x1 x2 x3 l) _ _ (l ⊕ m ⊕ 1) _ _ M V R).
  unfold dA, nA, yl, sumx. ring.
Qed.
Lemma slopes_tangent x1 x2 x3 l m mu nu : yl x1 x2 l ≡ yl x3 x2 m ->
  dA x1 x2 x3 l ≡ 0 -> nA x1 x2 x3 l m ≡ 0 -> mu ⊗ x3 ≡ x3 ⊗ x3 ⊕ yl x1 x2 l ⊕ m ⊗ (x2 ⊕ x3) -> nu ⊗ dA x3 x2 x1 m ≡ nA x3 x2 x1 m l ->
  ~ x3 ≡ 0 -> ~ dA x3 x2 x1 m ≡ 0 -> mu ⊕ nu ≡ l ⊕ m.
Proof.
  intros R A M T V H3 HB. apply (cancel _ _ _ H3), (cancel _ _ _ HB).
  assert (Ea : a ≡ x3 ⊕ l ⊗ l ⊕ l ⊕ x1 ⊕ x2) by (apply (comb1 _ _ 1 _ _ A); unfold dA, sumx; ring).
  unfold dA, nA, yl, sumx in *. rewrite Ea in *.
  apply (comb3 _ _ (x1 ⊗ (l ⊕ m ⊕ 1) ⊕ x3 ⊗ (l ⊕ m) ⊕ (l ⊕ m) ⊗ (l ⊕ m ⊕ 1)) _ _ (m ⊗ m ⊕ m ⊕ x3 ⊕ x2 ⊕ (x3 ⊕ l ⊗ l ⊕ l ⊕ x1 ⊕ x2) ⊕ x1) _ _ x3 _ _ M T V).
  ring.
Qed.
Lemma slopes_both x1 x2 x3 l m mu nu : yl x1 x2 l ≡ yl x3 x2 m ->
  dA x1 x2 x3 l ≡ 0 -> nA x1 x2 x3 l m ≡ 0 -> dA x3 x2 x1 m ≡ 0 -> nA x3 x2 x1 m l ≡ 0 ->
  mu ⊗ x3 ≡ x3 ⊗ x3 ⊕ yl x1 x2 l ⊕ m ⊗ (x2 ⊕ x3) -> nu ⊗ x1 ≡ x1 ⊗ x1 ⊕ yl x1 x2 l ⊕ l ⊗ (x1 ⊕ x2) ->
  ~ x3 ≡ 0 -> ~ x1 ≡ 0 -> mu ⊕ nu ≡ l ⊕ m /\ mu ⊗ x3 ⊕ nu ⊗ x1 ⊕ (l ⊕ m) ⊗ (mu ⊗ mu ⊕ mu ⊕ dA x1 x2 x3 l ⊕ a) ⊕ l ⊗ (x1 ⊕ x2) ⊕ m ⊗ (x2 ⊕ x3) ≡ 0.
Proof.
  intros R A M B V T U H3 H1.
  assert (Et : (l ⊕ m) ⊗ (l ⊕ m ⊕ 1) ≡ 0) by (apply (comb2 _ _ 1 _ _ 1 _ _ A B); unfold dA, sumx; ring).
  assert (En : (l ⊕ m) ⊗ x2 ⊕ (l ⊕ m ⊕ 1) ⊗ x3 ≡ 0) by (apply (comb2 _ _ 1 _ _ (l ⊕ 1) _ _ M A); unfold dA, nA, sumx; ring).
  destruct (integral p Hp Hirr _ _ Et) as [E|E].
  { exfalso. apply H3. apply (comb2 _ _ 1 _ _ (x2 ⊕ x3) _ _ En E). ring. }
  assert (Em : m ≡ l ⊕ 1) by (apply (comb1 _ _ 1 _ _ E); ring).
  assert (E2 : x2 ≡ 0) by (apply (comb2 _ _ 1 _ _ (x2 ⊕ x3) _ _ En E); ring).
  assert (Ea : a ≡ x3 ⊕ l ⊗ l ⊕ l ⊕ x1) by (apply (comb2 _ _ 1 _ _ 1 _ _ A E2); unfold dA, sumx; ring).
  unfold dA, nA, yl, sumx in *. rewrite Em, E2, Ea in *. clear R A M B V Et En E.
  assert (Emu : mu ≡ x3 ⊕ x1 ⊕ l ⊕ 1). { apply (cancel _ _ _ H3). apply (comb1 _ _ 1 _ _ T). ring. }
  assert (Enu : nu ≡ x3 ⊕ x1 ⊕ l). { apply (cancel _ _ _ H1). apply (comb1 _ _ 1 _ _ U). ring. }
  rewrite Emu, Enu. split; ring.
Qed.
Lemma third_y x1 x2 x3 l m mu nu : yl x1 x2 l ≡ yl x3 x2 m ->
  mu ⊗ dA x1 x2 x3 l ≡ nA x1 x2 x3 l m -> ~ dA x1 x2 x3 l ≡ 0 -> mu ⊕ nu ≡ l ⊕ m ->
  mu ⊗ x3 ⊕ nu ⊗ x1 ⊕ (l ⊕ m) ⊗ (mu ⊗ mu ⊕ mu ⊕ dA x1 x2 x3 l ⊕ a) ⊕ l ⊗ (x1 ⊕ x2) ⊕ m ⊗ (x2 ⊕ x3) ≡ 0.
Proof.
  intros R M HA C. apply (cancel _ _ _ HA), (cancel _ _ _ HA).
  apply (comb3 _ _ ((x1 ⊕ x3) ⊗ dA x1 x2 x3 l ⊕ (l ⊕ m) ⊗ (mu ⊗ dA x1 x2 x3 l ⊕ nA x1 x2 x3 l m) ⊕ (l ⊕ m) ⊗ dA x1 x2 x3 l) _ _
    (x1 ⊗ dA x1 x2 x3 l ⊗ dA x1 x2 x3 l) _ _ (x1 ⊕ x2 ⊗ l ⊕ x2 ⊗ m ⊕ x2 ⊕ x3 ⊗ l ⊕ x3 ⊗ m ⊕ l ⊗ l ⊕ l ⊕ a) _ _ M C R).
  unfold dA, nA, yl, sumx. ring.
Qed.

Lemma dA_swap x1 x2 x3 l m : dA x1 x2 x3 l ⊕ dA x3 x2 x1 m ≡ (l ⊕ m) ⊗ (l ⊕ m) ⊕ (l ⊕ m).
Proof. unfold dA, sumx. ring. Qed.
(** What is known of one side: slope of the sum and the third point. *)
Lemma side x1 y1 x2 y2 x3 y3 l m xs ys mu : sl x1 y1 x2 y2 l -> sl x2 y2 x3 y3 m -> xs ≡ sumx x1 x2 l -> ys ≡ sumy x2 y2 xs l -> sl xs ys x3 y3 mu ->
  mu ⊗ dA x1 x2 x3 l ≡ nA x1 x2 x3 l m /\ (dA x1 x2 x3 l ≡ 0 -> mu ⊗ x3 ≡ x3 ⊗ x3 ⊕ yl x1 x2 l ⊕ m ⊗ (x2 ⊕ x3)).
Proof.
  intros [L1 L2] [K1 K2] Ex Ey [M1 M2]. unfold sumy in Ey. rewrite Ey, Ex in M1. rewrite Ex in M2. clear Ey. split.
  - unfold dA, nA. apply (comb2 _ _ 1 _ _ 1 _ _ M1 K1). ring.
  - intros A. unfold dA in A.
    assert (Ey : y2 ≡ yl x1 x2 l) by exact L2. rewrite <- Ey.
    apply (comb3 _ _ (mu ⊗ mu ⊕ mu ⊕ sumx x1 x2 l ⊕ a) _ _ 1 _ _ 1 _ _ A M2 K1). ring.
Qed.
Lemma assoc_fin x1 y1 x2 y2 x3 y3 l m xs ys xt yt : pt (Some (x1, y1)) -> pt (Some (x2, y2)) -> pt (Some (x3, y3)) ->
  sl x1 y1 x2 y2 l -> sl x2 y2 x3 y3 m -> pt (Some (xs, ys)) -> pt (Some (xt, yt)) ->
  xs ≡ sumx x1 x2 l -> ys ≡ sumy x2 y2 xs l -> xt ≡ sumx x2 x3 m -> yt ≡ sumy x3 y3 xt m ->
  ~ opp xs ys x3 y3 -> ~ opp x1 y1 xt yt ->
  padd c (Some (xs, ys)) (Some (x3, y3)) = padd c (Some (x1, y1)) (Some (xt, yt)).
Proof.
  intros P1 P2 P3 L K Ps Pt Exs Eys Ext Eyt O1 O2.
  destruct (padd_sl _ _ _ _ Ps P3 O1) as [mu [x [y [Mu [-> [X [Y [Ex Ey]]]]]]]]. symmetry.
  destruct (padd_sl _ _ _ _ P1 Pt O2) as [nu [x' [y' [Nu [-> [X' [Y' [Ex' Ey']]]]]]]].
  assert (Ext' : xt ≡ sumx x3 x2 m) by (rewrite Ext; unfold sumx; ring).
  assert (Eyt' : yt ≡ sumy x2 y2 xt m). { rewrite Eyt. unfold sumy. destruct K as [K1 _]. apply (comb1 _ _ 1 _ _ K1). ring. }
  destruct (side _ _ _ _ _ _ _ _ _ _ _ L K Exs Eys Mu) as [M1 M2].
  destruct (side _ _ _ _ _ _ _ _ _ _ _ (sl_sym _ _ _ _ _ K) (sl_sym _ _ _ _ _ L) Ext' Eyt' (sl_sym _ _ _ _ _ Nu)) as [V1 V2].
  assert (R : yl x1 x2 l ≡ yl x3 x2 m). { transitivity y2; [symmetry; apply L|]. apply (sl_sym _ _ _ _ _ K). }
  assert (R' := R). symmetry in R'.
  assert (A0 : dA x1 x2 x3 l ≡ 0 -> nA x1 x2 x3 l m ≡ 0 /\ ~ x3 ≡ 0).
  { intros A. split; [rewrite <- M1, A; ring|]. intros E3.
    assert (Exs3 : xs = x3). { apply (elem_eq p Hp); [apply Ps|apply P3|]. unfold dA in A. rewrite <- Exs in A. apply eq_of. exact A. }
    destruct (dbl_nz _ _ _ _ Ps P3 O1 (eq_sym Exs3)) as [_ H]. apply (nz xs); [apply Ps|exact H|]. rewrite Exs3. exact E3. }
  assert (B0 : dA x3 x2 x1 m ≡ 0 -> nA x3 x2 x1 m l ≡ 0 /\ ~ x1 ≡ 0).
  { intros B. split; [rewrite <- V1, B; ring|]. intros E1.
    assert (Ext1 : xt = x1). { apply (elem_eq p Hp); [apply Pt|apply P1|]. unfold dA in B. rewrite <- Ext' in B. apply eq_of. exact B. }
    destruct (dbl_nz _ _ _ _ P1 Pt O2 Ext1) as [_ H]. apply (nz x1); [apply P1|exact H|exact E1]. }
  assert (Main : mu ⊕ nu ≡ l ⊕ m /\ mu ⊗ x3 ⊕ nu ⊗ x1 ⊕ (l ⊕ m) ⊗ (mu ⊗ mu ⊕ mu ⊕ dA x1 x2 x3 l ⊕ a) ⊕ l ⊗ (x1 ⊕ x2) ⊕ m ⊗ (x2 ⊕ x3) ≡ 0).
  { destruct (eqm_dec p (dA x1 x2 x3 l) 0) as [A|A], (eqm_dec p (dA x3 x2 x1 m) 0) as [B|B].
    - destruct (A0 A) as [A1 A2], (B0 B) as [B1 B2]. apply slopes_both; auto. rewrite (V2 B). rewrite R, (N.lxor_comm x1 x2). reflexivity.
    - destruct (A0 A) as [A1 A2].
      assert (C : mu ⊕ nu ≡ l ⊕ m) by (apply (slopes_tangent x1 x2 x3 l m); auto). split; [exact C|].
      assert (C' : nu ⊕ mu ≡ m ⊕ l) by (rewrite (N.lxor_comm nu), (N.lxor_comm m); exact C).
      pose proof (third_y x3 x2 x1 m l nu mu R' V1 B C') as Z. pose proof (dA_swap x1 x2 x3 l m) as D.
      apply (comb3 _ _ 1 _ _ (l ⊕ m) _ _ ((l ⊕ m) ⊗ (mu ⊕ nu ⊕ l ⊕ m ⊕ 1)) _ _ Z D C). ring.
    - destruct (B0 B) as [B1 B2].
      assert (C' : nu ⊕ mu ≡ m ⊕ l) by (apply (slopes_tangent x3 x2 x1 m l); auto).
      assert (C : mu ⊕ nu ≡ l ⊕ m) by (rewrite (N.lxor_comm mu), (N.lxor_comm l); exact C').
      split; [exact C|]. apply third_y; assumption.
    - assert (C : mu ⊕ nu ≡ l ⊕ m) by (apply (slopes_generic x1 x2 x3 l m); assumption). split; [exact C|]. apply third_y; assumption. }
  destruct Main as [C D].
  assert (Ex2 : x' = x). { apply (elem_eq p Hp); [assumption..|]. rewrite Ex, Ex'. unfold sumx in *. rewrite Exs, Ext. apply (comb1 _ _ (mu ⊕ nu ⊕ l ⊕ m ⊕ 1) _ _ C). ring. }
  subst x'. f_equal. f_equal. apply (elem_eq p Hp); [assumption..|].
  pose proof L as [L1 _]. pose proof K as [K1 _]. pose proof Nu as [Nu1 _]. unfold sumy in *.
  assert (F : y' ≡ nu ⊗ (x1 ⊕ x) ⊕ x ⊕ y1). { rewrite Ey'. apply (comb1 _ _ 1 _ _ Nu1). ring. }
  assert (G : x ≡ mu ⊗ mu ⊕ mu ⊕ dA x1 x2 x3 l ⊕ a). { rewrite Ex. unfold dA, sumx in *. rewrite Exs. ring. }
  rewrite F, Ey. rewrite <- G in D.
  apply eq_of. transitivity (mu ⊗ x3 ⊕ nu ⊗ x1 ⊕ (mu ⊕ nu) ⊗ x ⊕ (y1 ⊕ y2) ⊕ (y2 ⊕ y3)); [ring|].
  rewrite <- L1, <- K1, C, <- D. ring.
Qed.
Theorem padd_assoc P Q R : pt P -> pt Q -> pt R -> padd c (padd c P Q) R = padd c P (padd c Q R).
Proof.
  intros HP HQ HR. destruct P as [[x1 y1]|]; [|reflexivity]. destruct Q as [[x2 y2]|]; [|reflexivity].
  destruct R as [[x3 y3]|]; [|change (padd c (Some (x2, y2)) None) with (Some (x2, y2)); destruct (padd c (Some (x1, y1)) (Some (x2, y2))) as [[? ?]|]; reflexivity].
  destruct (opp_dec x1 y1 x2 y2) as [O1|O1].
  { rewrite (padd_opp _ _ _ _ HP HQ O1). assert (E : Some (x1, y1) = pneg (Some (x2, y2))) by (destruct (opp_sym _ _ _ _ O1) as [-> ->]; reflexivity).
    rewrite E. change (padd c None (Some (x3, y3))) with (Some (x3, y3)). rewrite padd_comm by (try apply pneg_pt; try apply padd_pt; assumption).
    rewrite (padd_comm (Some (x2, y2))) by assumption. symmetry. apply padd_sub; assumption. }
  destruct (opp_dec x2 y2 x3 y3) as [O2|O2].
  { rewrite (padd_opp _ _ _ _ HQ HR O2). assert (E : Some (x3, y3) = pneg (Some (x2, y2))) by (destruct O2 as [-> ->]; reflexivity).
    rewrite E. rewrite padd_sub by assumption. reflexivity. }
  destruct (padd_sl _ _ _ _ HP HQ O1) as [l [xs [ys [L [Es [Xs [Ys [Exs Eys]]]]]]]].
  destruct (padd_sl _ _ _ _ HQ HR O2) as [m [xt [yt [K [Et [Xt [Yt [Ext Eyt]]]]]]]].
  pose proof (sum_on _ _ _ _ l _ _ HP HQ L Xs Ys Exs Eys) as Ps.
  pose proof (sum_on _ _ _ _ m _ _ HQ HR K Xt Yt Ext Eyt) as Pt.
  destruct (opp_dec xs ys x3 y3) as [O3|O3].
  { rewrite Es, (padd_opp _ _ _ _ Ps HR O3). assert (E : Some (x3, y3) = pneg (Some (xs, ys))) by (destruct O3 as [-> ->]; reflexivity).
    symmetry. apply opp_iff; [assumption..|rewrite Et; exact Pt|].
    rewrite E, <- Es, pneg_padd by assumption.
    rewrite padd_comm by (try apply padd_pt; try apply pneg_pt; assumption).
    rewrite <- (pneg_neg (Some (x2, y2))) at 2. apply padd_sub; apply pneg_pt; assumption. }
  destruct (opp_dec x1 y1 xt yt) as [O4|O4].
  { rewrite Et, (padd_opp _ _ _ _ HP Pt O4). assert (E : Some (x1, y1) = pneg (Some (xt, yt))) by (destruct (opp_sym _ _ _ _ O4) as [-> ->]; reflexivity).
    apply opp_iff; [rewrite Es; exact Ps|assumption|].
    rewrite E, <- Et, (pneg_padd (Some (x2, y2))) by assumption.
    rewrite (padd_comm (pneg _) (pneg _)) by (apply pneg_pt; assumption).
    rewrite <- (pneg_neg (Some (x2, y2))) at 2. rewrite padd_sub by (apply pneg_pt; assumption). symmetry. apply pneg_neg. }
  rewrite Es, Et. exact (assoc_fin x1 y1 x2 y2 x3 y3 l m xs ys xt yt HP HQ HR L K Ps Pt Exs Eys Ext Eyt O3 O4).
Qed.
End Ec.
