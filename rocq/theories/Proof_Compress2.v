(** What compression writes. *)
From Coq Require Import Lia Ring Setoid Morphisms.
From Verif Require Import Base Lib Model_Gf2m Model_Compress Spec_Gf2m Spec_Compress Proof_Gf2 Proof_Field Proof_Compress.

Section Any.
Variable p : N.
Hypothesis Hp : 1 < p.
Notation "a ≡ b" := (eqm p a b) (at level 70).
#[local] Instance j1 : Equivalence (eqm p) := eqm_equiv p.
#[local] Instance j2 : Proper (eqm p ==> eqm p ==> eqm p) N.lxor := lxor_eqm p.
#[local] Instance j3 : Proper (eqm p ==> eqm p ==> eqm p) clmul := clmul_eqm p Hp.
Add Ring Rp3 : (Rp_theory p) (morphism (Rp_morph p), setoid (eqm_equiv p) (Rp_ext p Hp)).
Hypothesis Hirr : irreducible p.
Hypothesis Hodd : Nat.odd (deg p) = true.

(** x with its lowest bit replaced. *)
Definition setlow (x : N) (t : bool) : N := if t then N.setbit x 0 else N.clearbit x 0.
Lemma setlow_half x t : setlow x t / 2 = x / 2.
Proof.
  unfold setlow. destruct t; [|apply clear_half]. rewrite setbit0_lxor. destruct (N.odd x); [reflexivity|apply half_lxor1].
Qed.
Lemma setlow_mod x t : setlow x t mod 2 = b2 t.
Proof.
  assert (E : N.odd (setlow x t) = t) by (destruct t, x as [|[x|x|]]; reflexivity).
  rewrite <- N.bit0_odd, N.bit0_eqb in E. destruct t; cbn [b2]; lia.
Qed.
Lemma setlow_elem x t : elem p x -> elem p (setlow x t).
Proof. intros H. unfold setlow. destruct t; [rewrite setbit0_lxor|rewrite clearbit0_lxor]; destruct (N.odd x); try exact H; apply elem_lxor1; assumption. Qed.
Lemma num_bytes_small v k : v < 256 ^ k -> num_bytes v <= k.
Proof.
  intros H. unfold num_bytes, num_bits. assert (S : N.size v <= 8 * k); [|lia].
  apply N.size_le in H || idtac. destruct (N.eq_dec v 0) as [-> |H0]; [cbn; lia|]. rewrite N.size_log2 by exact H0.
  change 256 with (2 ^ 8) in H. rewrite <- N.pow_mul_r in H. apply N.log2_lt_pow2 in H; lia.
Qed.
Lemma num_bytes_0 v : num_bytes v = 0 <-> v = 0.
Proof.
  unfold num_bytes, num_bits. split; [|intros ->; reflexivity]. intros H. destruct (N.eq_dec v 0) as [|H0]; [assumption|]. rewrite N.size_log2 in H by exact H0. lia.
Qed.
Lemma elem_fits a b v : elem p v -> v < 256 ^ field_size (CURVE p a b).
Proof.
  intros H. unfold elem in H. apply (N.lt_le_trans _ _ _ H). unfold field_size. cbn [c_p]. change 256 with (2 ^ 8). rewrite <- N.pow_mul_r. apply N.pow_le_mono_r; lia.
Qed.
Lemma bn_encode_elem a b v : elem p v -> bn_encode v (field_size (CURVE p a b)) = Some (be_bytes (N.to_nat (field_size (CURVE p a b))) v, num_bytes v).
Proof.
  intros H. unfold bn_encode. pose proof (num_bytes_small v _ (elem_fits a b v H)). destruct (N.ltb_spec (field_size (CURVE p a b)) (num_bytes v)); [lia|reflexivity].
Qed.
Lemma compress_ok a b x y len : elem p x -> elem p y -> x <> 0 -> field_size (CURVE p a b) <= len ->
  exists z t, elem p z /\ gmul p z x = y /\ trace_of p z = b2 t /\
    compress (CURVE p a b) (Some (x, y)) len = if setlow x t =? 0 then None else Some (be_bytes (N.to_nat (field_size (CURVE p a b))) (setlow x t)).
Proof.
  intros Hx Hy H0 Hl. unfold compress. cbn [c_p]. replace (len <? _) with false by lia. replace (x =? 0) with false by lia.
  assert (Hx0 : ~ x ≡ 0) by (intros E; apply H0; apply (elem_eqm0 p Hp); assumption).
  destruct (ginv_ok p Hp Hirr x Hx0) as [i [-> [Hi1 Hi2]]]. set (z := gmul p y i).
  assert (Hz : elem p z) by (apply gmul_elem; exact Hp).
  destruct (bn_trace_ok p Hp Hirr z Hz) as [t [-> Ht]]. exists z, t. split; [exact Hz|]. split; [|split].
  - apply (elem_eq p Hp); [apply gmul_elem; exact Hp|exact Hy|]. unfold z. rewrite !(gmul_eqm p Hp). transitivity (y ⊗ (x ⊗ i)); [ring|]. rewrite Hi2. ring.
  - destruct (trace_of_tr p Hp z Hz) as [T1 T2]. apply (elem_eq p Hp); [exact T2|apply b2_elem; exact Hp|]. rewrite T1. exact Ht.
  - fold (setlow x t). rewrite bn_encode_elem by (apply setlow_elem; exact Hx). pose proof (num_bytes_0 (setlow x t)) as Hn.
    destruct (N.eqb_spec (num_bytes (setlow x t)) 0), (N.eqb_spec (setlow x t) 0); tauto || reflexivity.
Qed.
Lemma be_val_zeros n : be_val (zeros n) = 0.
Proof.
  unfold be_val. assert (E : rev (zeros n) = zeros n); [|rewrite E; apply le_val_zeros]. unfold zeros. induction n as [|n IH]; [reflexivity|]. cbn [repeat rev]. rewrite IH.
  clear IH. induction n as [|n IH]; [reflexivity|]. cbn [repeat app]. rewrite IH. reflexivity.
Qed.
Lemma compress_stands a b x y len out : on_curve (CURVE p a b) x y -> compressible (CURVE p a b) x \/ x = 0 -> compress (CURVE p a b) (Some (x, y)) len = Some out ->
  field_size (CURVE p a b) = N.of_nat (length out) /\ stands_for (CURVE p a b) out x y.
Proof.
  intros Hon Hc H. assert (Hl : field_size (CURVE p a b) <= len) by (unfold compress in H; destruct (N.ltb_spec len (field_size (CURVE p a b))); [discriminate|assumption]).
  destruct (N.eq_dec x 0) as [E0|E0].
  - unfold compress in H. replace (len <? _) with false in H by lia. rewrite E0 in H. change (0 =? 0) with true in H. cbv iota in H. injection H as <-.
    rewrite length_zeros, N2Nat.id. split; [reflexivity|]. split; [exact Hon|]. left. split; [apply be_val_zeros|exact E0].
  - destruct Hc as [Hc|]; [|contradiction]. pose proof Hon as [Hx [Hy _]]. cbn [c_p] in Hx, Hy.
    destruct (compress_ok a b x y len Hx Hy E0 Hl) as [z [t [Hz [Ez [Tz E]]]]]. rewrite E in H.
    destruct (N.eqb_spec (setlow x t) 0) as [|Hv]; [discriminate|]. injection H as <-.
    assert (Ev : be_val (be_bytes (N.to_nat (field_size (CURVE p a b))) (setlow x t)) = setlow x t) by (apply be_val_be_bytes; rewrite N2Nat.id; apply elem_fits, setlow_elem, Hx).
    split; [rewrite be_bytes_length, N2Nat.id; reflexivity|]. split; [exact Hon|]. right. rewrite Ev. split; [exact Hv|]. split; [exact E0|]. split; [exact Hc|].
    split; [apply setlow_half|]. exists z. split; [exact Hz|]. split; [exact Ez|]. rewrite setlow_mod. exact Tz.
Qed.
Lemma one_mul z : elem p z -> gmul p z 1 = z.
Proof. intros H. apply (elem_eq p Hp); [apply gmul_elem; exact Hp|exact H|]. rewrite (gmul_eqm p Hp). ring. Qed.
Lemma compress_total a b x y len : on_curve (CURVE p a b) x y -> x <> 1 \/ trace_of p y = 1 -> field_size (CURVE p a b) <= len ->
  exists out, compress (CURVE p a b) (Some (x, y)) len = Some out.
Proof.
  intros Hon Hc Hl. pose proof Hon as [Hx [Hy _]]. cbn [c_p] in Hx, Hy. destruct (N.eq_dec x 0) as [E0|E0].
  - unfold compress. replace (len <? _) with false by lia. rewrite E0. eexists. reflexivity.
  - destruct (compress_ok a b x y len Hx Hy E0 Hl) as [z [t [Hz [Ez [Tz E]]]]]. rewrite E.
    destruct (N.eqb_spec (setlow x t) 0) as [Hv|]; [|eexists; reflexivity]. exfalso.
    pose proof (setlow_half x t) as Hh. pose proof (setlow_mod x t) as Hm. rewrite Hv in *. change (0 / 2) with 0 in Hh. change (0 mod 2) with 0 in Hm.
    assert (x = 1) by lia. subst x. rewrite one_mul in Ez by exact Hz. subst z. destruct Hc as [|Hc]; [congruence|]. rewrite Hc in Tz. congruence.
Qed.
Lemma compress_one a b y : on_curve (CURVE p a b) 1 y -> trace_of p y = 0 -> forall len, compress (CURVE p a b) (Some (1, y)) len = None.
Proof.
  intros Hon Ht len. pose proof Hon as [Hx [Hy _]]. cbn [c_p] in Hx, Hy.
  destruct (N.ltb_spec len (field_size (CURVE p a b))) as [H|H]; [unfold compress; replace (len <? _) with true by lia; reflexivity|].
  destruct (compress_ok a b 1 y len Hx Hy ltac:(discriminate) H) as [z [t [Hz [Ez [Tz E]]]]]. rewrite one_mul in Ez by exact Hz. subst z.
  rewrite Ht in Tz. destruct t; [discriminate|]. rewrite E. reflexivity.
Qed.
Lemma one_point b : elem p b -> trace_of p b = 0 -> exists y, on_curve (CURVE p 1 b) 1 y /\ trace_of p y = 0.
Proof.
  intros Hb Ht. destruct (trace_of_tr p Hp b Hb) as [T1 _]. rewrite Ht in T1.
  destruct (solve_quad_complete p Hp Hirr b Hodd (symmetry T1)) as [z Ez]. apply (solve_quad_sound p Hp) in Ez. destruct Ez as [Hz Ez].
  assert (Hy : exists y, elem p y /\ y ⊗ y ⊕ y ≡ b /\ tr (deg p) y ≡ 0).
  { destruct (tr_bool p Hp Hirr z) as [[] Hb2].
    - exists (z ⊕ 1). split; [apply elem_lxor1; assumption|]. split; [rewrite <- Ez; ring|]. rewrite tr_flip by assumption. rewrite Hb2. cbn [b2]. ring.
    - exists z. auto. }
  destruct Hy as [y [H1 [H2 H3]]]. exists y. split.
  - apply on_curve_iff; [exact Hp|exact Hb|]. split; [apply elem_1; exact Hp|]. split; [exact H1|]. unfold curve_eq. rewrite <- H2. ring.
  - destruct (trace_of_tr p Hp y H1) as [Y1 Y2]. apply (elem_eq p Hp); [exact Y2|apply elem_0; exact Hp|]. rewrite Y1. exact H3.
Qed.
End Any.

Lemma dstu_parts c : dstu_curve c -> exists p a b, c = CURVE p a b /\ 1 < p /\ irreducible p /\ Nat.odd (deg p) = true /\ (a = 0 \/ a = 1) /\ elem p b.
Proof.
  destruct c as [p a b]. intros [H1 [H2 [H3 H4]]]. cbn [c_p c_a c_b] in *. exists p, a, b. split; [reflexivity|]. split; [apply H1|]. split; [exact H1|]. split; [|auto].
  unfold deg. apply N.odd_spec in H2. destruct H2 as [k Hk]. apply Nat.odd_spec. exists (N.to_nat k). lia.
Qed.
Lemma expand_iff_all c solve s x y : dstu_curve c -> good_solver (c_p c) solve ->
  (expand solve s c = Some (Some (x, y)) <-> field_size c <= N.of_nat (length s) /\ stands_for c s x y).
Proof. intros Hc. destruct (dstu_parts c Hc) as [p [a [b [-> [Hp [Hi [Ho [Ha Hb]]]]]]]]. cbn [c_p]. intros Hs. apply stands_iff; assumption. Qed.
Lemma expand_compress c solve x y len out : dstu_curve c -> good_solver (c_p c) solve -> on_curve c x y -> compressible c x \/ x = 0 ->
  compress c (Some (x, y)) len = Some out -> expand solve out c = Some (Some (x, y)).
Proof.
  intros Hc Hs Hon Hx H. apply expand_iff_all; [exact Hc|exact Hs|]. destruct (dstu_parts c Hc) as [p [a [b [-> [Hp [Hi [Ho [Ha Hb]]]]]]]].
  destruct (compress_stands p Hp Hi a b x y len out Hon Hx H) as [H1 H2]. split; [lia|exact H2].
Qed.
Lemma expand_not c solve s x y : dstu_curve c -> good_solver (c_p c) solve -> x <> 0 -> ~ compressible c x -> expand solve s c <> Some (Some (x, y)).
Proof.
  intros Hc Hs H0 Hx H. apply expand_iff_all in H; [|exact Hc|exact Hs]. destruct H as [_ [_ [[_ H]|[_ [_ [H _]]]]]]; contradiction.
Qed.
Lemma compress_success c x y len : dstu_curve c -> on_curve c x y -> x <> 1 \/ trace_of (c_p c) y = 1 -> field_size c <= len -> exists out, compress c (Some (x, y)) len = Some out /\ bytesn (N.to_nat (field_size c)) out.
Proof.
  intros Hc Hon H Hl. destruct (dstu_parts c Hc) as [p [a [b [-> [Hp [Hi [Ho [Ha Hb]]]]]]]].
  destruct (compress_total p Hp Hi a b x y len Hon H Hl) as [out E]. exists out. split; [exact E|].
  unfold compress in E. destruct (_ <? _); [discriminate|]. destruct (x =? 0).
  - injection E as <-. split; [apply bytes_zeros|apply length_zeros].
  - destruct (ginv _ _); [|discriminate]. destruct (bn_trace _ _) as [t|]; [|discriminate]. unfold bn_encode in E. destruct (_ <? _); [discriminate|].
    destruct (_ =? 0); [discriminate|]. injection E as <-. split; [apply be_bytes_bytes|apply be_bytes_length].
Qed.
Lemma compress_fails c : dstu_curve c -> c_a c = 1 -> trace_of (c_p c) (c_b c) = 0 ->
  exists y, on_curve c 1 y /\ compressible c 1 /\ forall len, compress c (Some (1, y)) len = None.
Proof.
  intros Hc Ha1 Ht. destruct (dstu_parts c Hc) as [p [a [b [-> [Hp [Hi [Ho [Ha Hb]]]]]]]]. cbn [c_p c_a c_b] in *. subst a.
  destruct (one_point p Hp Hi Ho b Hb Ht) as [y [H1 H2]]. exists y. split; [exact H1|]. split; [reflexivity|]. apply compress_one; assumption.
Qed.
Lemma expand_on_curve c solve s P : 1 < c_p c -> elem (c_p c) (c_b c) -> expand solve s c = Some P -> exists x y, P = Some (x, y) /\ on_curve c x y.
Proof. destruct c as [p a b]. cbn [c_p c_b]. intros Hp Hb. apply expand_sound; assumption. Qed.
Lemma expand_short c solve s : N.of_nat (length s) < field_size c -> expand solve s c = None.
Proof. intros H. unfold expand. replace (_ <? _) with true by lia. reflexivity. Qed.
Lemma expand_oversize c solve s : 1 < c_p c -> 2 ^ degree (c_p c) <= be_val s -> expand solve s c = None.
Proof. destruct c as [p a b]. cbn [c_p]. intros Hp. apply expand_big. exact Hp. Qed.
Lemma half_trace_solver p : irreducible p -> N.odd (degree p) = true -> good_solver p solve_quad.
Proof.
  intros Hi H. apply odd_solver; [apply Hi|exact Hi|]. unfold deg. apply N.odd_spec in H. destruct H as [k Hk]. apply Nat.odd_spec. exists (N.to_nat k). lia.
Qed.
