(** Expanding a point while one allocation fails. *)
From Coq Require Import ZArith List Lia Setoid Morphisms.
Import ListNotations.
From Verif Require Import Base Model_Params Model_Gf2m Model_Compress Model_Ec Model_Utils Model_Curves Model_Sign Model_Asn1 Model_Pmeth Model_Key Model_Ctx Model_Oom Spec_Ctx Spec_Oom Spec_Gf2m Spec_Compress Proof_Gf2 Proof_Field Proof_Compress Proof_Compress2 Proof_Ctx6 Proof_Oom Proof_Oom2.
Open Scope N_scope.

Lemma gets_only k j : forall h n, (n + j <= k \/ k < n)%nat -> gets (fails_at k) j (h, n) = Ret (Some tt, (h, n + j)%nat).
Proof.
  induction j as [|j IH]; intros h n H; cbn [gets]; [rewrite Nat.add_0_r; reflexivity|].
  unfold bindM at 1. rewrite call_only by lia. cbv beta iota. rewrite IH by lia. replace (S n + j)%nat with (n + S j)%nat by lia. reflexivity.
Qed.
Lemma loop_only k j bn p : forall r h n, (n + 2 * j <= k \/ k < n)%nat -> h_trace_loop (fails_at k) j bn p r (h, n) = Ret (Some (trace_loop j bn p r), (h, n + 2 * j)%nat).
Proof.
  induction j as [|j IH]; intros r h n H; cbn [h_trace_loop trace_loop]; [rewrite Nat.add_0_r; reflexivity|].
  unfold bindM at 1. rewrite call_only by lia. cbv beta iota. unfold bindM at 1. rewrite call_only by lia. cbv beta iota. rewrite IH by lia. replace (S (S n) + 2 * j)%nat with (n + 2 * S j)%nat by lia. reflexivity.
Qed.
Lemma try_only k h n : n <> k -> try (fails_at k) (h, n) = Ret (true, (h, S n)).
Proof. intros H. unfold try, fails_at, some_malloc. destruct (Nat.eqb_spec n k); [contradiction|reflexivity]. Qed.
Definition trace_calls (p : N) : nat := 2 + 2 * N.to_nat (num_bits p - 2).
Lemma trace_only k bn p h n : (n + trace_calls p <= k)%nat -> h_trace (fails_at k) bn p (h, n) = Ret (bn_trace bn p, (h, n + trace_calls p)%nat).
Proof.
  unfold trace_calls. intros H. unfold h_trace, bn_trace. unfold bindM at 1. rewrite try_only by lia. cbv beta iota. cbn [negb]. unfold bindM at 1. rewrite call_only by lia. cbv beta iota.
  unfold bindM at 1. rewrite loop_only by lia. cbv beta iota. unfold ret. replace (S (S n) + 2 * N.to_nat (num_bits p - 2))%nat with (n + (2 + 2 * N.to_nat (num_bits p - 2)))%nat by lia. reflexivity.
Qed.
Lemma trace_lost k bn p h n : k = S n -> h_trace (fails_at k) bn p (h, n) = Ret (None, (h, S (S n))).
Proof.
  intros ->. unfold h_trace. unfold bindM at 1. rewrite try_only by lia. cbv beta iota. cbn [negb]. unfold bindM at 1, call, bindM, try, fails_at, some_malloc. rewrite Nat.eqb_refl. reflexivity.
Qed.
Lemma cond_only A k (b : bool) (u v : A) h n : n <> k -> (if b then call (fails_at k) (Some u) else ret (Some v)) (h, n) = Ret (Some (if b then u else v), (h, n + if b then 1 else 0)%nat).
Proof. intros H. destruct b; [rewrite call_only by exact H; rewrite Nat.add_1_r; reflexivity|]. rewrite Nat.add_0_r. reflexivity. Qed.

Section At.
Variables (c : curve) (solve : N -> N -> option N) (s : list N).
Let p := c_p c.
Lemma expand_lost t x y0 xi z : field_size c <= N.of_nat (length s) -> be_val s <> 0 -> bn_trace (N.clearbit (be_val s) 0) p = Some t ->
  x = (if (t && (c_a c =? 0)) || (negb t && (c_a c =? 1)) then N.setbit (N.clearbit (be_val s) 0) 0 else N.clearbit (be_val s) 0) ->
  y0 = N.lxor (if c_a c =? 1 then N.lxor (gmul p (gsqr p x) x) (gsqr p x) else gmul p (gsqr p x) x) (c_b c) ->
  ginv p (gsqr p x) = Some xi -> solve p (gmul p y0 xi) = Some z ->
  exists j, forall h n, exists n', (n + j < n')%nat /\ h_expand (fails_at (n + j)) solve s c (h, n) = Ret (set_affine c x (gmul p (if N.testbit (be_val s) 0 then z else N.lxor z 1) x), (h, n')).
Proof.
  intros L B T X Y I0 Z.
  set (b1 := (t && (c_a c =? 0)) || (negb t && (c_a c =? 1))) in *. set (b2 := c_a c =? 1) in *.
  exists (S (15 + trace_calls p + (if b1 then 1 else 0) + (if b2 then 1 else 0)))%nat. intros h n. set (k := (n + _)%nat).
  assert (K1 : (n + 16 + trace_calls p <= k)%nat) by (unfold k; lia).
  unfold h_expand. destruct (N.ltb_spec (N.of_nat (length s)) (field_size c)); [lia|].
  unfold bindM at 1. assert (NW : new (fails_at k) OTemp (h, n) = Ret (Some (above h), ((above h, OTemp) :: h, S n))).
  { unfold new, fails_at, some_malloc. destruct (Nat.eqb_spec n k); [lia|reflexivity]. }
  rewrite NW. cbv beta iota. set (h1 := (above h, OTemp) :: h). unfold bindM at 1. fold p.
  unfold bindM at 1. rewrite gets_only by lia. cbv beta iota. unfold bindM at 1. rewrite call_only by lia. cbv beta iota. unfold bindM at 1. rewrite call_only by lia. cbv beta iota.
  destruct (N.eqb_spec (be_val s) 0); [contradiction|]. cbv zeta.
  unfold bindM at 1. rewrite trace_only by lia. cbv beta iota. rewrite T. fold b2. fold b1.
  unfold bindM at 1. rewrite cond_only by lia. cbv beta iota. rewrite <- X.
  destruct b1 eqn:E1.
  all: unfold bindM at 1; rewrite call_only by lia; cbv beta iota; unfold bindM at 1; rewrite call_only by lia; cbv beta iota; unfold bindM at 1; rewrite cond_only by lia; cbv beta iota.
  all: unfold bindM at 1; rewrite call_only by (destruct b2; lia); cbv beta iota; rewrite <- Y; unfold bindM at 1; rewrite call_only by (destruct b2; lia); cbv beta iota; rewrite I0.
  all: unfold bindM at 1; rewrite call_only by (destruct b2; unfold k; lia); cbv beta iota; unfold bindM at 1; rewrite call_only by (destruct b2; unfold k; lia); cbv beta iota; rewrite Z.
  all: unfold bindM at 1; rewrite trace_lost by (destruct b2; unfold k; lia); cbv beta iota.
  all: unfold bindM at 1; rewrite cond_only by (destruct b2; unfold k; lia); cbv beta iota; unfold bindM at 1; rewrite call_only by (destruct b2, (N.testbit (be_val s) 0); unfold k; cbn [xorb]; lia); cbv beta iota.
  all: rewrite call_only by (destruct b2, (N.testbit (be_val s) 0); unfold k; cbn [xorb]; lia); cbv beta iota.
  all: unfold bindM at 1, free, h1; rewrite live_head, release_head; unfold ret; destruct (N.testbit (be_val s) 0); eexists; (split; [|reflexivity]); destruct b2; unfold k; cbn [xorb]; lia.
Qed.
End At.

Lemma expand_every_wrong solve c s x y : dstu_curve c -> good_solver (c_p c) solve -> field_size c <= N.of_nat (length s) -> stands_for c s x y -> x <> 0 ->
  (forall a z, solve (c_p c) a = Some z -> gmul (c_p c) z x = y \/ gmul (c_p c) z x = N.lxor x y -> trace_of (c_p c) z = 0) ->
  (exists j, forall h n, exists n', (n + j < n')%nat /\ h_expand (fails_at (n + j)) solve s c (h, n) = Ret (Some (Some (x, N.lxor x y)), (h, n'))) /\ ~ stands_for c s x (N.lxor x y).
Proof.
  intros Hc Hs L St X0 Hz. pose proof (proj2 (expand_iff_all c solve s x y Hc Hs) (conj L St)) as E.
  assert (NS : ~ stands_for c s x (N.lxor x y)).
  { intros St'. pose proof (proj2 (expand_iff_all c solve s _ _ Hc Hs) (conj L St')) as E'. rewrite E in E'. injection E' as E'. apply X0.
    rewrite <- (N.lxor_0_r x), <- (N.lxor_nilpotent y), <- N.lxor_assoc, <- E', N.lxor_nilpotent. reflexivity. }
  destruct (dstu_parts c Hc) as [p [a [b [Ec [Hp [Hi [Ho [Ha Hb]]]]]]]].
  assert (B : be_val s <> 0) by (destruct St as [_ [[_ W]|[W _]]]; [contradiction|exact W]).
  assert (Ep : c_p c = p) by (rewrite Ec; reflexivity).
  pose proof E as E0. revert E. unfold expand. destruct (N.ltb_spec (N.of_nat (length s)) (field_size c)); [lia|]. destruct (N.eqb_spec (be_val s) 0); [contradiction|]. cbv zeta.
  destruct (bn_trace (N.clearbit (be_val s) 0) (c_p c)) as [t|] eqn:Et; [|discriminate].
  assert (He : elem (c_p c) (N.clearbit (be_val s) 0)) by (rewrite Ep in Et |- *; apply (bn_trace_inv p Hp) in Et; tauto).
  set (x1 := if _ || _ then N.setbit _ _ else _). destruct (ginv _ _) as [xi|] eqn:Ei; [|discriminate]. destruct (solve _ _) as [z|] eqn:Ez; [|discriminate].
  intros E. assert (Ex : x1 = x) by (revert E; unfold set_affine; destruct (on_curveb _ _ _); [intros [= <- _]; reflexivity|discriminate]).
  assert (Hx : elem (c_p c) x1).
  { unfold x1. rewrite set_clear. destruct (_ || _); [rewrite Ep in *; apply (elem_lxor1 p Hp)|]; exact He. }
  assert (E1 : gmul (c_p c) (N.lxor z 1) x1 = N.lxor (gmul (c_p c) z x1) x1).
  { unfold gmul. rewrite clmul_lxor_l, clmul_1_l, pmod_lxor. f_equal. rewrite Ep in *. apply pmod_small; [lia|]. unfold elem in Hx. rewrite degree_log2 in Hx by lia. exact Hx. }
  assert (Tz : bn_trace z (c_p c) = Some false).
  { assert (Hel : elem (c_p c) z) by (apply Hs in Ez; [tauto|rewrite Ep; apply gmul_elem; exact Hp]).
    assert (T0 : trace_of (c_p c) z = 0).
    { apply (Hz _ _ Ez). revert E. unfold set_affine. destruct (on_curveb _ _ _); [|discriminate]. intros [= _ Ey]. rewrite <- Ex. destruct (xorb _ _); [right|left; exact Ey].
      rewrite E1 in Ey. rewrite <- Ey, N.lxor_comm, N.lxor_assoc, N.lxor_nilpotent, N.lxor_0_r. reflexivity. }
    rewrite Ep in *. destruct (bn_trace_ok p Hp Hi z Hel) as [tz [E2 E3]]. rewrite E2. f_equal. apply (b2_inj p Hp). destruct (trace_of_tr p Hp z Hel) as [E4 _]. rewrite T0 in E4. destruct E3 as [E3], E4 as [E4]. constructor. cbn [b2] in *. congruence. }
  rewrite Tz in E.
  destruct (expand_lost c solve s t x1 _ xi z L B Et eq_refl eq_refl Ei Ez) as [j K]. split; [|exact NS]. exists j. intros h m. destruct (K h m) as [n' [K1 K2]]. exists n'. split; [exact K1|]. rewrite K2. repeat f_equal. clear K K1 K2.
  revert E. destruct (N.testbit (be_val s) 0); cbn [xorb]; unfold set_affine; rewrite E1, on_curveb_flip; destruct (on_curveb c x1 (gmul (c_p c) z x1)); try discriminate; intros [= Ea Eb]; rewrite <- Ea, <- Eb.
  - rewrite (N.lxor_comm (gmul _ _ _)), <- N.lxor_assoc, N.lxor_nilpotent, N.lxor_0_l. reflexivity.
  - rewrite N.lxor_comm. reflexivity.
Qed.

(** The root that BN_GF2m_mod_solve_quad finds has the trace 0. *)
Section Root.
Variable p : N.
Hypothesis Hp : 1 < p.
Hypothesis Hi : irreducible p.
Notation "a ≡ b" := (eqm p a b) (at level 70).
#[local] Instance j1 : Equivalence (eqm p) := eqm_equiv p.
#[local] Instance j2 : Proper (eqm p ==> eqm p ==> eqm p) N.lxor := lxor_eqm p.
#[local] Instance j3 : Proper (eqm p ==> eqm p ==> eqm p) clmul := clmul_eqm p Hp.
#[local] Instance j5 n : Proper (eqm p ==> eqm p) (tr n) := tr_eqm p Hp n.
Lemma half_trace_tr a n : tr (deg p) a ≡ 0 -> forall z, tr (deg p) z ≡ 0 -> tr (deg p) (half_trace p a n z) ≡ 0.
Proof.
  intros Ha. induction n as [|n IH]; intros z Hz; cbn [half_trace]; [exact Hz|]. apply IH.
  rewrite (tr_add p Hp), Ha, !(gsqr_eqm p Hp), !(tr_deg_sq p Hp Hi), Hz. reflexivity.
Qed.
Lemma root_trace a z : solve_quad p a = Some z -> trace_of p z = 0.
Proof.
  intros H. pose proof (solve_quad_sound p Hp a z H) as [He Hq].
  assert (T : tr (deg p) z ≡ 0).
  { assert (Ta : tr (deg p) (pmod a p) ≡ 0).
    { rewrite (pmod_eqm p Hp). apply (quad_trace p Hp Hi z a Hq). }
    revert H. unfold solve_quad. destruct (pmod a p =? 0); [intros [= <-]; apply (tr_0 p Hp)|]. destruct (_ =? pmod a p); [|discriminate]. intros [= <-]. apply half_trace_tr; exact Ta. }
  destruct (trace_of_tr p Hp z He) as [T1 T2]. apply (elem_eq p Hp); [exact T2|apply elem_0; exact Hp|]. destruct T as [T], T1 as [T1]. constructor. congruence.
Qed.
End Root.
Lemma expand_all c s x y : dstu_curve c -> field_size c <= N.of_nat (length s) -> stands_for c s x y -> x <> 0 ->
  (exists j, forall h n, exists n', (n + j < n')%nat /\ h_expand (fails_at (n + j)) solve_quad s c (h, n) = Ret (Some (Some (x, N.lxor x y)), (h, n'))) /\ ~ stands_for c s x (N.lxor x y).
Proof.
  intros Hc L St X0. pose proof Hc as [Hi [Ho _]]. apply expand_every_wrong; try assumption; [apply half_trace_solver; assumption|]. intros a z Ez _. apply (root_trace (c_p c) (proj1 Hi) Hi a z Ez).
Qed.
Lemma expand_every c s x y h n : dstu_curve c -> field_size c <= N.of_nat (length s) -> stands_for c s x y -> x <> 0 ->
  exists k n', h_expand (fails_at k) solve_quad s c (h, n) = Ret (Some (Some (x, N.lxor x y)), (h, n')) /\ ~ stands_for c s x (N.lxor x y).
Proof.
  intros Hc L St X0. destruct (expand_all c s x y Hc L St X0) as [[j J] NS]. destruct (J h n) as [n' [_ K]]. exists (n + j)%nat, n'. auto.
Qed.

(** A curve given by its parameters. *)
Lemma new_only k o h n : n <> k -> new (fails_at k) o (h, n) = Ret (Some (above h), ((above h, o) :: h, S n)).
Proof. intros H. unfold new, fails_at, some_malloc. destruct (Nat.eqb_spec n k); [contradiction|reflexivity]. Qed.
Lemma buffer_only A k le s s' (use : list N -> M (option A)) r h n (Q : nat -> Prop) : in_order le s = Some s' -> (le = true -> n <> k) ->
  (forall h1, exists n', Q n' /\ use s' (h1, n + if le then 1 else 0)%nat = Ret (r, (h1, n'))) -> exists n', Q n' /\ in_buffer (fails_at k) le s use (h, n) = Ret (r, (h, n')).
Proof.
  intros E H U. unfold in_order in E. unfold in_buffer. destruct le; [|injection E as <-; rewrite <- (Nat.add_0_r n); apply U].
  destruct s as [|a s]; [discriminate|]. assert (Es : s' = rev (a :: s)) by congruence. rewrite Es in U. unfold bindM at 1. rewrite new_only by (apply H; reflexivity). cbv beta iota. unfold bindM at 1. destruct (U ((above h, OTemp) :: h)) as [n' [U1 U2]]. rewrite Nat.add_1_r in U2. match type of U2 with ?t = _ => match goal with |- context [use ?l ?m] => change (use l m) with t end end. rewrite U2. cbv beta iota.
  unfold bindM, free. rewrite live_head, release_head. exists n'. split; [exact U1|reflexivity].
Qed.
Lemma above_gt p o h : (p < above ((p, o) :: h))%nat.
Proof. unfold above. cbn [fold_right fst]. lia. Qed.
Lemma custom_every spec le g x y h n : group_from_asn1 solve_quad spec le = Some g -> dstu_curve (g_curve g) -> g_gen g = Some (x, y) -> x <> 0 ->
  exists k q n', h_group_from_asn1 (fails_at k) solve_quad spec le (h, n) = Ret (Some q, ((q, OGroup (Binary (GROUP (g_curve g) (Some (x, N.lxor x y)) (g_order g) (g_cofactor g)))) :: h, n')).
Proof.
  unfold group_from_asn1. rewrite exps_poly. intros E Hc G0 X0. unfold h_group_from_asn1. destruct (exps_of_spec (cu_field spec)) as [poly|]; [|discriminate]. destruct (arr2poly poly 0) as [P|] eqn:EP; [|discriminate].
  destruct (negb (cu_a spec =? 1)%Z && negb (cu_a spec =? 0)%Z) eqn:EA; [discriminate|]. destruct (in_order le (cu_b spec)) as [b|] eqn:Eb; [|discriminate]. destruct (new_curve P (Z.to_N (cu_a spec)) (be_val b)) as [c|] eqn:EC; [|discriminate].
  destruct (in_order le (cu_bp spec)) as [bp|] eqn:Ebp; [|discriminate]. destruct (expand solve_quad bp c) as [G|] eqn:EG; [|discriminate]. destruct (cu_n spec <? 0)%Z eqn:En; [discriminate|].
  unfold set_generator in E. destruct ((Z.to_N (cu_n spec) =? 0) || (num_bits (c_p c) + 1 <? num_bits (Z.to_N (cu_n spec)))) eqn:EO; [discriminate|]. injection E as <-. cbn [g_curve g_gen g_order g_cofactor] in *. subst G.
  pose proof Hc as [Hi [Ho _]]. apply (expand_iff_all c solve_quad bp x y Hc (half_trace_solver _ Hi Ho)) in EG. destruct EG as [L St].
  destruct (expand_all c bp x y Hc L St X0) as [[j J] _].
  set (l := if le then 1%nat else 0%nat). set (k := (n + 11 + l + l + j)%nat).
  exists k. unfold bindM at 1. rewrite new_only by (unfold k; lia). cbv beta iota. set (p0 := above h). set (h1 := (p0, OTemp) :: h).
  unfold bindM at 1. unfold bindM at 1. rewrite gets_only by (unfold k; lia). cbv beta iota. unfold bindM at 1. rewrite call_only by (unfold k; lia). cbv beta iota. unfold bindM at 1. rewrite call_only by (unfold k; lia). cbv beta iota. rewrite EA.
  unfold bindM at 1. destruct (buffer_only _ k le (cu_b spec) b (fun b => call (fails_at k) (Some (be_val b))) (Some (be_val b)) h1 (S (S (S n + 4))) (eq (S (S (S (S n + 4)) + l)))) as [n1 [<- B1]]; [exact Eb|intros _; unfold k; lia|intros h2; eexists; split; [reflexivity|]; apply call_only; fold l; unfold k; lia|]. rewrite B1. cbv beta iota.
  unfold bindM at 1. rewrite call_only by (unfold k; lia). cbv beta iota. rewrite EC. unfold bindM at 1. rewrite new_only by (unfold k; lia). cbv beta iota. set (q := above h1). unfold ret at 1. cbv beta iota.
  unfold bindM at 1. unfold bindM at 1. rewrite new_only by (unfold k; lia). cbv beta iota. set (h2 := (q, _) :: h1). set (g0 := above h2).
  set (m := (S (S (S (S (S (S (S n + 4)) + l)))))%nat).
  assert (M : (m + l + j = k)%nat) by (unfold m, k; lia).
  destruct (buffer_only _ k le (cu_bp spec) bp (fun bp => h_expand (fails_at k) solve_quad bp c) (Some (Some (x, N.lxor x y))) ((g0, OTemp) :: h2) m (fun n' => k < n')%nat) as [n2 [L2 B2]]; [exact Ebp|intros ->; unfold l in M; cbv iota in M; lia| |].
  { intros h3. fold l. rewrite <- M. apply J. }
  unfold bindM at 1. unfold bindM at 1. match type of B2 with ?t = _ => match goal with |- context [in_buffer ?x1 ?x2 ?x3 ?x4 ?x5] => change (in_buffer x1 x2 x3 x4 x5) with t end end. rewrite B2. cbv beta iota. rewrite En. unfold set_generator. rewrite EO. rewrite call_only by lia. cbv beta iota.
  pose proof (above_gt p0 OTemp h : p0 < q)%nat as A1. pose proof (above_gt q (OGroup (Binary (GROUP c None 0 0))) h1 : q < g0)%nat as A2.
  assert (E1 : Nat.eqb q g0 = false) by (apply Nat.eqb_neq; lia). assert (E2 : Nat.eqb p0 g0 = false) by (apply Nat.eqb_neq; lia). assert (E3 : Nat.eqb p0 q = false) by (apply Nat.eqb_neq; lia).
  clearbody g0 q p0. exists q, (S n2). unfold bindM, put, free, free_opt, ret, h2, h1. cbn [live store release]. rewrite ?E1, ?Nat.eqb_refl. cbn [live store release]. rewrite ?E1, ?E2, ?E3, ?Nat.eqb_refl. cbn [live store release]. rewrite ?E1, ?E2, ?E3, ?Nat.eqb_refl. reflexivity.
Qed.
Lemma custom_every_opposite spec le g x y h n : group_from_asn1 solve_quad spec le = Some g -> dstu_curve (g_curve g) -> g_gen g = Some (x, y) -> x <> 0 ->
  pneg (g_gen g) <> g_gen g /\ exists k q n', h_group_from_asn1 (fails_at k) solve_quad spec le (h, n) = Ret (Some q, ((q, OGroup (Binary (GROUP (g_curve g) (pneg (g_gen g)) (g_order g) (g_cofactor g)))) :: h, n')).
Proof.
  intros E Hc G0 X0. split; [|rewrite G0; apply (custom_every spec le g x y h n E Hc G0 X0)].
  rewrite G0. cbn [pneg]. intros [= W]. apply X0. rewrite <- (N.lxor_0_r x), <- (N.lxor_nilpotent y), <- N.lxor_assoc, W, N.lxor_nilpotent. reflexivity.
Qed.

(** The memory of BN_CTX_get in bn_trace. *)
Lemma trace_undef k bn p h n : k = n -> h_trace (fails_at k) bn p (h, n) = Undef.
Proof. intros ->. unfold h_trace, bindM at 1, try, fails_at, some_malloc. rewrite Nat.eqb_refl. reflexivity. Qed.
Lemma expand_undef solve c s h n : field_size c <= N.of_nat (length s) -> be_val s <> 0 -> h_expand (fails_at (n + 9)) solve s c (h, n) = Undef.
Proof.
  intros L B. set (k := (n + 9)%nat). unfold h_expand. destruct (N.ltb_spec (N.of_nat (length s)) (field_size c)); [lia|].
  unfold bindM at 1. rewrite new_only by (unfold k; lia). cbv beta iota. unfold bindM at 1. unfold bindM at 1. rewrite gets_only by (unfold k; lia). cbv beta iota.
  unfold bindM at 1. rewrite call_only by (unfold k; lia). cbv beta iota. unfold bindM at 1. rewrite call_only by (unfold k; lia). cbv beta iota.
  destruct (N.eqb_spec (be_val s) 0); [contradiction|]. cbv zeta. unfold bindM at 1. rewrite trace_undef by (unfold k; lia). reflexivity.
Qed.
Lemma compress_undef c x y len h n : dstu_curve c -> on_curve c x y -> x <> 0 -> field_size c <= len -> h_compress (fails_at (n + 9)) c (Some (x, y)) len (h, n) = Undef.
Proof.
  intros Hc On X0 L. destruct (dstu_parts c Hc) as [p [a [b [Ec [Hp [Hi _]]]]]]. assert (Ep : c_p c = p) by (rewrite Ec; reflexivity).
  assert (Ei : exists xi, ginv (c_p c) x = Some xi).
  { destruct On as [Hx _]. rewrite Ep in *. destruct (ginv_ok p Hp Hi x) as [xi [E _]]; [|eauto]. intros W. apply X0. apply (elem_eq p Hp); [exact Hx|apply elem_0; exact Hp|exact W]. }
  destruct Ei as [xi Ei]. set (k := (n + 9)%nat). unfold h_compress. destruct (N.ltb_spec len (field_size c)); [lia|].
  unfold bindM at 1. rewrite new_only by (unfold k; lia). cbv beta iota. unfold bindM at 1. unfold bindM at 1. rewrite gets_only by (unfold k; lia). cbv beta iota.
  unfold bindM at 1. rewrite call_only by (unfold k; lia). cbv beta iota. unfold bindM at 1. rewrite call_only by (unfold k; lia). cbv beta iota.
  destruct (N.eqb_spec x 0); [contradiction|]. rewrite Ei. unfold bindM at 1. rewrite call_only by (unfold k; lia). cbv beta iota. unfold bindM at 1. rewrite call_only by (unfold k; lia). cbv beta iota.
  unfold bindM at 1. rewrite trace_undef by (unfold k; lia). reflexivity.
Qed.
Lemma crash_every c h n : dstu_curve c ->
  (forall x y len, on_curve c x y -> x <> 0 -> field_size c <= len -> exists k, h_compress (fails_at k) c (Some (x, y)) len (h, n) = Undef) /\
  (forall solve s, field_size c <= N.of_nat (length s) -> be_val s <> 0 -> exists k, h_expand (fails_at k) solve s c (h, n) = Undef).
Proof. intros Hc. split; intros; exists (n + 9)%nat; [apply compress_undef|apply expand_undef]; assumption. Qed.
