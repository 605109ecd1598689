(** Keys survive encoding and decoding. *)
From Coq Require Import Lia ZArith.
From Verif Require Import Base Lib Model_Params Proof_Params Model_Gf2m Model_Compress Model_Ec Model_Utils Model_Curves Model_Sign Model_Asn1 Model_Pmeth Model_Key Model_Ameth
  Spec_Gf2m Spec_Compress Spec_Curves Spec_Asn1 Spec_Sign Spec_Pmeth Spec_Key Proof_Gf2 Proof_Asn1 Proof_Compress2 Proof_Curves2 Proof_Curves3 Proof_Sign Proof_Pmeth.

(** * Exponents *)
Lemma pexp_length q : forall i, N.of_nat (length (pexponents q i)) = pweight q.
Proof. induction q as [q IH|q IH|]; intros i; cbn [pexponents pweight length]; [specialize (IH (i + 1)); lia|apply IH|reflexivity]. Qed.
Lemma pexp_lor q : forall i, fold_right (fun i a => N.lor a (N.shiftl 1 i)) 0 (pexponents q i) = N.shiftl (Npos q) i.
Proof.
  induction q as [q IH|q IH|]; intros i; cbn [pexponents fold_right].
  - rewrite IH. apply N.bits_inj. intros n. rewrite N.lor_spec. destruct (N.le_gt_cases (i + 1) n) as [H|H].
    + rewrite !N.shiftl_spec_high' by lia. replace (n - i) with (N.succ (n - (i + 1))) by lia. change (N.pos q~1) with (2 * N.pos q + 1). rewrite N.testbit_odd_succ by lia.
      replace (N.testbit 1 (N.succ (n - (i + 1)))) with false by (symmetry; apply N.bits_above_log2; cbn; lia). rewrite orb_false_r. reflexivity.
    + rewrite N.shiftl_spec_low by lia. destruct (N.eq_dec n i) as [->|NE].
      * rewrite !N.shiftl_spec_high' by lia. rewrite N.sub_diag. reflexivity.
      * rewrite !N.shiftl_spec_low by lia. reflexivity.
  - rewrite IH. rewrite !N.shiftl_mul_pow2. replace (i + 1) with (N.succ i) by lia. rewrite N.pow_succ_r'. lia.
  - rewrite N.lor_0_l. reflexivity.
Qed.
Lemma pexp_ge q : forall i, Forall (fun e => i <= e) (pexponents q i).
Proof.
  induction q as [q IH|q IH|]; intros i; cbn [pexponents]; [constructor; [lia|]|..|constructor; [lia|constructor]];
  (eapply Forall_impl; [|apply (IH (i + 1))]; cbn; intros; lia).
Qed.
Lemma pexp_ne q : forall i, pexponents q i <> [].
Proof. induction q as [q IH|q IH|]; intros i; cbn [pexponents]; [discriminate|apply IH|discriminate]. Qed.
Lemma pexp_last q : forall i d, last (pexponents q i) d = i + N.pos (Pos.size q) - 1.
Proof.
  induction q as [q IH|q IH|]; intros i d; cbn [pexponents Pos.size].
  - destruct (pexponents q (i + 1)) as [|x l] eqn:E; [destruct (pexp_ne q _ E)|]. rewrite <- E. change (last (i :: pexponents q (i + 1)) d) with (match pexponents q (i + 1) with [] => i | _ => last (pexponents q (i + 1)) d end).
    rewrite E at 1. rewrite IH. lia.
  - rewrite IH. lia.
  - cbn. lia.
Qed.
Lemma arr2poly_fold l : forall acc, Forall (fun i => 0 <= i)%Z l -> arr2poly (l ++ [-1])%Z acc = Some (fold_left (fun a i => N.lor a (N.shiftl 1 (Z.to_N i))) l acc).
Proof.
  induction l as [|x l IH]; intros acc H; [reflexivity|]. inversion H as [|? ? H1 H2]; subst. cbn [app arr2poly fold_left].
  destruct (Z.eqb_spec x (-1)); [lia|]. destruct (Z.ltb_spec x 0); [lia|]. apply IH, H2.
Qed.
Lemma fold_map l : forall acc, fold_left (fun a i => N.lor a (N.shiftl 1 (Z.to_N i))) (map Z.of_N l) acc = fold_left (fun a i => N.lor a (N.shiftl 1 i)) l acc.
Proof. induction l as [|x l IH]; intros acc; [reflexivity|]. cbn [map fold_left]. rewrite N2Z.id. apply IH. Qed.
Lemma exponents_poly p : p <> 0 -> arr2poly (map Z.of_N (exponents p) ++ [-1])%Z 0 = Some p.
Proof.
  intros H. rewrite arr2poly_fold by (apply Forall_map, Forall_forall; intros; lia). rewrite fold_map. f_equal. destruct p as [|q]; [contradiction|]. cbn [exponents].
  rewrite <- fold_left_rev_right, rev_involutive. rewrite pexp_lor. apply N.shiftl_0_r.
Qed.
Lemma exponents_length p : N.of_nat (length (exponents p)) = weight p.
Proof. destruct p as [|q]; [reflexivity|]. cbn [exponents weight]. rewrite rev_length. apply pexp_length. Qed.
(** With a constant term: largest first, 0 last, the others positive. *)
Lemma exponents_shape p : 1 < p -> N.testbit p 0 = true -> exists l, exponents p = degree p :: l ++ [0] /\ Forall (fun e => 0 < e) l /\ 0 < degree p.
Proof.
  intros H B. destruct p as [|q]; [discriminate|]. destruct q as [q|q|]; [|discriminate|lia]. cbn [exponents pexponents rev].
  pose proof (pexp_last q (0 + 1) 0) as L. pose proof (pexp_ge q (0 + 1)) as G. set (m := pexponents q (0 + 1)) in *.
  assert (m <> []) by apply pexp_ne. destruct (exists_last H0) as [r [x E]]. rewrite E in *. rewrite last_last in L.
  rewrite rev_app_distr. cbn [rev app]. exists (rev r). split; [|split].
  - f_equal. unfold degree, num_bits. cbn [N.size Pos.size]. lia.
  - apply Forall_rev. apply Forall_app in G as [G _]. eapply Forall_impl; [|exact G]. cbn. intros; lia.
  - unfold degree, num_bits. cbn [N.size Pos.size]. lia.
Qed.
(** Without it, three terms. *)
Lemma exponents_even p : weight p = 3 -> N.testbit p 0 = false -> exists a b c, exponents p = [a; b; c] /\ 0 < c.
Proof.
  intros W B. pose proof (exponents_length p) as L. rewrite W in L. destruct p as [|q]; [discriminate|]. destruct q as [q|q|]; try discriminate. cbn [exponents pexponents] in *.
  pose proof (pexp_ge q (0 + 1)) as G. apply Forall_rev in G. set (l := rev _) in *. destruct l as [|a [|b [|c [|]]]]; cbn in L; try lia.
  exists a, b, c. split; [reflexivity|]. inversion G as [|? ? _ G1]; subst. inversion G1 as [|? ? _ G2]; subst. inversion G2; subst. lia.
Qed.

(** * Curve parameters *)
Lemma irr_bit0 p : irreducible p -> 1 < degree p -> N.testbit p 0 = true.
Proof.
  intros [H1 H] D. destruct (N.testbit p 0) eqn:E; [reflexivity|exfalso]. assert (X : clmul 2 (N.div2 p) = p).
  { change (clmul 2 (N.div2 p)) with (N.double (N.div2 p)). rewrite N.double_spec. pose proof (N.div2_odd p) as O. rewrite <- N.bit0_odd, E in O. cbn in O. lia. }
  destruct (H _ _ X) as [A|A]; [discriminate|]. rewrite A in X. rewrite <- X in D. vm_compute in D. discriminate.
Qed.
Lemma wf_degree g : well_formed g -> 1 < degree (c_p (g_curve g)) \/ degree (c_p (g_curve g)) = 1.
Proof. intros [[[H _] [O _]] _]. destruct (N.eq_dec (degree (c_p (g_curve g))) 0) as [E|E]; [rewrite E in O; discriminate|lia]. Qed.
Lemma weight_small p : degree p = 1 -> weight p <= 2.
Proof. unfold degree, num_bits. destruct p as [|[q|q|]]; cbn; try lia; destruct q; cbn; lia. Qed.
Lemma get_small x : (0 <= x < 2 ^ 31)%Z -> asn1_get x = x.
Proof.
  intros H. unfold asn1_get. replace ((- 2 ^ 63 <=? x) && (x <? 2 ^ 63))%Z with true by (symmetry; apply andb_true_iff; split; [apply Z.leb_le|apply Z.ltb_lt]; lia).
  rewrite Z.mod_small by lia. lia.
Qed.
Lemma int_ok_small x k : (0 <= k <= 2 ^ 31)%Z -> (0 <= x < 2 ^ k)%Z -> integer_ok x.
Proof.
  intros K H. unfold integer_ok. pose proof (Z.pow_le_mono_r 2 k (2 ^ 31) ltac:(lia) (proj2 K)) as M. revert M. generalize (2 ^ (2 ^ 31))%Z. intros B M. clear K. generalize dependent (2 ^ k)%Z. intros. lia.
Qed.
(** The middle terms, and back. *)
Lemma middle_back p : 1 < p -> N.testbit p 0 = true -> weight p = 3 \/ weight p = 5 -> degree p < 2 ^ 30 ->
  exists mid, middle_of (poly2arr p 6) = Ok mid /\ elt (poly2arr p 6) 0 = Ok (Z.of_N (degree p)) /\ middle_ok mid /\ poly_of_spec (BF (Z.of_N (degree p)) mid) = Some p.
Proof.
  intros H1 B W D. pose proof (exponents_poly p ltac:(lia)) as A. pose proof (exponents_length p) as L. destruct (exponents_shape p H1 B) as [l [E [P Dp]]].
  assert (BD : Forall (fun e => e < 2 ^ 31) l).
  { apply Forall_forall. intros e He. destruct (N.lt_ge_cases e (2 ^ 31)) as [|G]; [assumption|exfalso].
    assert (T : N.testbit p e = true).
    { destruct p as [|q]; [lia|]. cbn [exponents] in E. pose proof (pexp_lor q 0) as X. rewrite N.shiftl_0_r in X. rewrite <- X.
      assert (I : In e (pexponents q 0)) by (apply in_rev; rewrite E; right; apply in_or_app; left; exact He). clear -I.
      induction (pexponents q 0) as [|x m IH]; [destruct I|]. cbn [fold_right]. rewrite N.lor_spec. destruct I as [->|I]; [|rewrite IH by exact I; reflexivity].
      rewrite N.shiftl_spec_high' by lia. rewrite N.sub_diag. apply orb_true_r. }
    destruct (N.lt_ge_cases (N.log2 p) e) as [X|X]; [rewrite N.bits_above_log2 in T by exact X; discriminate|].
    unfold degree, num_bits in D. rewrite N.size_log2 in D by lia. lia. }
  assert (IO : forall e, e < 2 ^ 31 -> integer_ok (Z.of_N e)).
  { intros e He. apply int_ok_small with 31%Z; lia. }
  rewrite E in *. unfold poly2arr. rewrite E. cbn [length] in L. rewrite app_length in L. cbn [length] in L.
  destruct l as [|a [|b [|c [|]]]]; cbn [length] in L; try lia.
  - exists (Trinomial (Z.of_N a)). inversion P as [|? ? P1 _]; subst. inversion BD as [|? ? B1 _]; subst. split; [reflexivity|]. split; [reflexivity|]. split; [apply IO, B1|].
    unfold poly_of_spec. cbn [bf_m bf_poly]. rewrite !get_small by lia. destruct (Z.leb_spec (Z.of_N (degree p)) 0); [lia|]. destruct (Z.leb_spec (Z.of_N a) 0); [lia|]. exact A.
  - exists (Pentanomial (Z.of_N c) (Z.of_N b) (Z.of_N a)). inversion P as [|? ? P1 P']; subst. inversion P' as [|? ? P2 P'']; subst. inversion P'' as [|? ? P3 _]; subst.
    inversion BD as [|? ? B1 B']; subst. inversion B' as [|? ? B2 B'']; subst. inversion B'' as [|? ? B3 _]; subst.
    split; [|split; [reflexivity|split; [exact (conj (IO _ B3) (conj (IO _ B2) (IO _ B1)))|]]].
    + unfold middle_of, elt. cbn [map app firstn nth bind]. replace (Z.of_N c =? -1)%Z with false by (symmetry; apply Z.eqb_neq; lia). reflexivity.
    + unfold poly_of_spec. cbn [bf_m bf_poly]. rewrite !get_small by lia. destruct (Z.leb_spec (Z.of_N (degree p)) 0); [lia|].
      destruct (Z.leb_spec (Z.of_N a) 0); [lia|]. destruct (Z.leb_spec (Z.of_N b) 0); [lia|]. destruct (Z.leb_spec (Z.of_N c) 0); [lia|]. exact A.
Qed.

Lemma compress_bytes c P len out : compress c P len = Some out -> bytesn (N.to_nat (field_size c)) out.
Proof.
  unfold compress. cbv zeta. destruct (len <? field_size c); [discriminate|]. destruct P as [[x y]|]; [|discriminate]. destruct (x =? 0).
  - intros [= <-]. split; [apply Forall_forall; intros z Hz; apply repeat_spec in Hz; subst; reflexivity|apply repeat_length].
  - destruct (ginv _ _); [|discriminate]. destruct (bn_trace _ _); [|discriminate]. destruct (bn_encode _ _) as [[o r]|] eqn:EN; [|discriminate]. destruct (r =? 0); [discriminate|]. unfold bn_encode in EN. destruct (_ <? _); [discriminate|]. injection EN as <- <-.
    intros [= <-]. split; [apply be_bytes_bytes|apply be_bytes_length].
Qed.
Lemma in_order_back le s : s <> [] -> in_order le (if le then rev s else s) = Some s.
Proof. intros H. unfold in_order. destruct le; [|reflexivity]. destruct (rev s) as [|x l] eqn:E; [destruct H; rewrite <- (rev_involutive s), E; reflexivity|]. rewrite <- E, rev_involutive. reflexivity. Qed.
Lemma field_size_pos c : 0 < degree (c_p c) -> 0 < field_size c.
Proof. intros H. unfold field_size. apply N.div_str_pos. lia. Qed.
Lemma field_size_Z c : Z.to_N ((Z.of_N (degree (c_p c)) + 7) / 8) = field_size c.
Proof. unfold field_size. rewrite <- (N2Z.id ((degree (c_p c) + 7) / 8)). f_equal. rewrite N2Z.inj_div, N2Z.inj_add. reflexivity. Qed.
Lemma size_degree p : p <> 0 -> N.size p = degree p + 1.
Proof. intros H. unfold degree, num_bits. rewrite N.size_log2 by exact H. lia. Qed.
Lemma elem_pmod p v : 1 < p -> elem p v -> pmod v p = v.
Proof. intros H E. apply pmod_small; [lia|]. unfold elem, degree, num_bits in E. rewrite N.size_log2 in E by lia. replace (N.succ (N.log2 p) - 1) with (N.log2 p) in E by lia. exact E. Qed.
Lemma string_small k s : k < 2 ^ 31 -> bytesn (N.to_nat k) s -> string_ok s.
Proof. intros K [B L]. split; [exact B|]. rewrite L, N2Nat.id. exact K. Qed.
Lemma rev_string (le : bool) s : string_ok s -> string_ok (if le then rev s else s).
Proof. intros [B L]. destruct le; [|split; assumption]. split; [apply bytes_rev, B|rewrite rev_length; exact L]. Qed.
Lemma le_1_2 v m : 1 < m -> v = 0 \/ v = 1 -> v < 2 ^ m.
Proof. intros H V. assert (2 ^ 1 < 2 ^ m) by (apply N.pow_lt_mono_r; lia). cbn in *. destruct V; subst; lia. Qed.

Record facts (g : group) : Prop := FACTS {
  f_p : 1 < c_p (g_curve g); f_bit : N.testbit (c_p (g_curve g)) 0 = true; f_deg : 1 < degree (c_p (g_curve g));
  f_a : elem (c_p (g_curve g)) (c_a (g_curve g)); f_a1 : c_a (g_curve g) = 0 \/ c_a (g_curve g) = 1; f_b : elem (c_p (g_curve g)) (c_b (g_curve g)); f_b0 : c_b (g_curve g) <> 0 }.
Lemma get_facts g : well_formed g -> api_group g -> facts g.
Proof.
  intros W [Wt _]. assert (D := wf_degree g W). destruct W as [[Ir [Od [A B]]] [B0 _]].
  assert (D1 : 1 < degree (c_p (g_curve g))) by (destruct D as [D|D]; [exact D|apply weight_small in D; lia]).
  split; try assumption; [apply Ir|apply irr_bit0; assumption|apply le_1_2; assumption].
Qed.
Lemma custom_back solve g le c : well_formed g -> api_group g -> good_solver (c_p (g_curve g)) solve -> custom_from_group g le = Ok c ->
  group_from_asn1 solve c le = Some (cofactor_one g) /\ custom_ok c.
Proof.
  intros W AG S H. pose proof (get_facts g W AG) as [Hp Hb0 Hd Ha Ha1 Hb Hbz]. destruct AG as [Wt [On [Os D]]].
  destruct (middle_back _ Hp Hb0 Wt D) as [mid [M [E0 [MO PS]]]]. unfold custom_from_group in H.
  destruct (N.eqb_spec (g_order g) 0); [lia|]. destruct (N.eqb_spec (c_p (g_curve g)) 0); [lia|]. rewrite E0, M in H. cbn [bind] in H. rewrite field_size_Z in H.
  set (cv := g_curve g) in *. assert (FS : field_size cv < 2 ^ 31) by (unfold field_size; apply N.div_lt_upper_bound; lia). pose proof (field_size_pos cv ltac:(lia)) as FP.
  destruct cv as [p a b] eqn:Ec. cbn [c_p c_a c_b] in *.
  rewrite (bn_encode_elem p ltac:(exact Hp)) in H by exact Hb. set (bb := be_bytes _ b) in H. destruct (num_bytes b =? 0); [discriminate|].
  destruct (compress _ (g_gen g) _) as [bp|] eqn:CP; [|discriminate]. injection H as <-.
  assert (Bb : bytesn (N.to_nat (field_size (CURVE p a b))) bb) by (split; [apply be_bytes_bytes|apply be_bytes_length]).
  assert (Bp : bytesn (N.to_nat (field_size (CURVE p a b))) bp) by (eapply compress_bytes, CP).
  assert (NN : forall s, bytesn (N.to_nat (field_size (CURVE p a b))) s -> s <> []) by (intros s [_ L] ->; cbn [length] in L; lia).
  split.
  - unfold group_from_asn1. cbn [cu_field cu_a cu_b cu_n cu_bp]. rewrite PS. replace (negb (Z.of_N a =? 1)%Z && negb (Z.of_N a =? 0)%Z) with false by (destruct Ha1; subst a; reflexivity).
    rewrite in_order_back by (apply NN, Bb). rewrite N2Z.id. unfold bb. rewrite be_val_be_bytes. 2:{ rewrite N2Nat.id. apply (elem_fits p ltac:(exact Hp)), Hb. }
    unfold new_curve. replace ((weight p =? 3) || (weight p =? 5)) with true by (destruct Wt as [-> | ->]; reflexivity). rewrite !elem_pmod by assumption.
    rewrite in_order_back by (apply NN, Bp). assert (W' := W). destruct W' as [DC [_ [[x [y [Eg [OC CO]]]] _]]]. unfold cv in Ec. rewrite Ec in *.
    rewrite Eg in CP. rewrite (expand_compress _ solve x y _ bp DC S OC (or_introl CO) CP).
    destruct (Z.ltb_spec (Z.of_N (g_order g)) 0); [lia|]. rewrite N2Z.id. unfold set_generator. cbn [c_p]. destruct (N.eqb_spec (g_order g) 0); [lia|].
    unfold num_bits. destruct (N.ltb_spec (N.size p + 1) (N.size (g_order g))); [lia|]. cbn [orb]. unfold cofactor_one. rewrite Ec, Eg. reflexivity.
  - unfold custom_ok. cbn [cu_field cu_a cu_b cu_n cu_bp bf_m bf_poly].
    split; [apply int_ok_small with 31%Z; lia|]. split; [exact MO|]. split; [apply int_ok_small with 31%Z; destruct Ha1; subst a; cbn; lia|].
    split; [apply rev_string, (string_small (field_size (CURVE p a b))); assumption|]. split; [|apply rev_string, (string_small (field_size (CURVE p a b))); assumption].
    assert (Sz := size_degree p ltac:(lia)). assert (LT := size_spec (g_order g)).
    apply int_ok_small with (Z.of_N (N.size (g_order g))); [lia|]. split; [lia|]. rewrite <- (N2Z.inj_pow 2). lia.
Qed.
Lemma custom_total g le : well_formed g -> api_group g -> has_compressed_form (g_curve g) (g_gen g) -> exists c, custom_from_group g le = Ok c.
Proof.
  intros W AG HC. pose proof (get_facts g W AG) as [Hp Hb0 Hd Ha Ha1 Hb Hbz]. destruct AG as [Wt [On [Os D]]].
  destruct (middle_back _ Hp Hb0 Wt D) as [mid [M [E0 [MO PS]]]]. unfold custom_from_group.
  destruct (N.eqb_spec (g_order g) 0); [lia|]. destruct (N.eqb_spec (c_p (g_curve g)) 0); [lia|]. rewrite E0, M. cbn [bind]. rewrite field_size_Z.
  destruct W as [DC [_ [[x [y [Eg [OC CO]]]] _]]]. rewrite Eg in *. cbn [has_compressed_form] in HC.
  destruct (compress_success _ x y (field_size (g_curve g)) DC OC HC ltac:(lia)) as [bp [-> _]].
  destruct (g_curve g) as [p a b] eqn:Ec. cbn [c_p c_a c_b] in *. rewrite (bn_encode_elem p ltac:(exact Hp)) by exact Hb.
  destruct (N.eqb_spec (num_bytes b) 0) as [Z|Z]; [exfalso; apply Hbz, (num_bytes_0 p ltac:(exact Hp)), Z|]. eexists. reflexivity.
Qed.
Lemma custom_defined g le : well_formed g -> api_group g -> custom_from_group g le <> Undefined.
Proof.
  intros W AG. pose proof (get_facts g W AG) as [Hp Hb0 Hd Ha Ha1 Hb Hbz]. destruct AG as [Wt [On [Os D]]].
  destruct (middle_back _ Hp Hb0 Wt D) as [mid [M [E0 [MO PS]]]]. unfold custom_from_group.
  destruct (N.eqb_spec (g_order g) 0); [lia|]. destruct (N.eqb_spec (c_p (g_curve g)) 0); [lia|]. rewrite E0, M. cbn [bind].
  destruct (bn_encode _ _) as [[bb r]|]; [|discriminate]. destruct (r =? 0); [discriminate|]. destruct (compress _ _ _); discriminate.
Qed.
(** Without a constant term elements are read that were never written. *)
Lemma custom_undefined g le : weight (c_p (g_curve g)) = 3 -> N.testbit (c_p (g_curve g)) 0 = false -> g_order g <> 0 -> custom_from_group g le = Undefined.
Proof.
  intros W B O. unfold custom_from_group. destruct (N.eqb_spec (g_order g) 0); [contradiction|]. destruct (N.eqb_spec (c_p (g_curve g)) 0) as [E|E]; [rewrite E in W; discriminate|].
  destruct (exponents_even _ W B) as [a [b [c [X C]]]]. unfold poly2arr. rewrite X. cbn [map app firstn repeat].
  change (elt _ 0) with (Ok (Z.of_N a)). cbn [bind]. unfold middle_of, elt. cbn [nth bind].
  replace (Z.of_N c =? 0)%Z with false by (symmetry; apply Z.eqb_neq; lia). reflexivity.
Qed.

(** * Parameters *)
Definition stored (sb : option (list N)) : option (list N) := match sb with Some s => if is_default_sbox s then None else Some s | None => None end.
Lemma stored_effective sb : effective (stored sb) = effective sb.
Proof. destruct sb as [s|]; [|reflexivity]. cbn. destruct (is_default_sbox s) eqn:E; [|reflexivity]. apply is_default_ok in E. symmetry. exact E. Qed.
Lemma stored_same sb : stored (stored sb) = stored sb.
Proof. destruct sb as [s|]; [|reflexivity]. cbn. destruct (is_default_sbox s) eqn:E; [reflexivity|]. cbn. rewrite E. reflexivity. Qed.
Lemma curve_oid_back nid : (1160 <= nid <= 1169)%Z -> exists o, curve_nid2obj nid = Some o /\ curve_obj2nid o = nid /\ oid_ok o = true /\ string_ok o.
Proof.
  intros H. exists (curve_oid (Z.to_N (nid - 1160))). unfold curve_nid2obj. replace ((1160 <=? nid) && (nid <=? 1169))%Z with true by (symmetry; apply andb_true_iff; split; apply Z.leb_le; lia).
  split; [reflexivity|]. assert (E : exists i, (i < 10)%nat /\ nid = (1160 + Z.of_nat i)%Z) by (exists (Z.to_nat (nid - 1160)); lia). destruct E as [i [Hi ->]].
  replace (Z.to_N (1160 + Z.of_nat i - 1160)) with (N.of_nat i) by lia.
  assert (BS : forall l, bytesb l = true /\ N.of_nat (length l) < 2 ^ 31 -> string_ok l).
  { intros l [B L]. split; [|exact L]. apply Forall_forall. intros x Hx. unfold bytesb in B. rewrite forallb_forall in B. apply N.ltb_lt, B, Hx. }
  do 10 (destruct i as [|i]; [split; [reflexivity|split; [reflexivity|apply BS; vm_compute; split; reflexivity]]|]). lia.
Qed.
Lemma nid_range g : curve_nid_from_group g <> 0%Z -> (1160 <= curve_nid_from_group g <= 1169)%Z.
Proof.
  intros H. pose proof (recognised g H) as R. destruct (Z_lt_le_dec (curve_nid_from_group g) 1160) as [L|L]; [rewrite other in R by lia; discriminate|].
  destruct (Z_lt_le_dec 1169 (curve_nid_from_group g)); [rewrite other in R by lia; discriminate|lia].
Qed.
(** The parameters written, and what is read back. *)
Lemma params_back solve g d Q sb le prm : well_formed g -> api_group g -> good_solver (c_p (g_curve g)) solve -> sbox_ok sb ->
  asn1_from_key (DKEY (ECKEY (Some (Binary g)) d Q) sb) le = Ok prm ->
  params_ok prm /\ exists g', (g' = g \/ curve_nid_from_group g = 0%Z /\ g' = cofactor_one g) /\
    key_from_asn1 solve prm le = Some (DKEY (ECKEY (Some (Binary g')) None None) (stored sb)).
Proof.
  intros W AG S SB H. unfold asn1_from_key in H. cbn [dk_ec ek_group dk_sbox] in H. fold (stored sb) in H. cbv zeta in H.
  assert (SO : match stored sb with Some s => string_ok s /\ length s = 64%nat | None => True end).
  { destruct sb as [s|]; [|exact I]. cbn in *. destruct (is_default_sbox s); [exact I|]. split; [|apply SB]. split; [apply SB|]. rewrite (proj2 SB). reflexivity. }
  assert (SK : match stored sb with Some s => if negb (length s =? 64)%nat then None else Some (if is_default_sbox s then None else Some s) | None => Some None end = Some (stored sb)).
  { pose proof (stored_same sb) as X. destruct (stored sb) as [s|]; [|reflexivity]. destruct SO as [_ ->]. cbn [Nat.eqb negb]. cbn in X. rewrite X. reflexivity. }
  destruct (Z.eqb_spec (curve_nid_from_group g) 0) as [E|E].
  - destruct (custom_from_group g le) as [| |c] eqn:C; try discriminate. cbn [bind] in H. injection H as <-.
    destruct (custom_back solve g le c W AG S C) as [C1 C2]. split; [split; [exact C2|]; cbn [ap_sbox]; destruct (stored sb); [apply SO|exact I]|].
    exists (cofactor_one g). split; [right; split; [exact E|reflexivity]|]. unfold key_from_asn1. cbn [ap_sbox ap_curve]. rewrite SK, C1. reflexivity.
  - destruct (curve_oid_back _ (nid_range g E)) as [o [O1 [O2 [O3 O4]]]]. rewrite O1 in H. injection H as <-.
    split; [split; [split; assumption|]; cbn [ap_sbox]; destruct (stored sb); [apply SO|exact I]|].
    exists g. split; [left; reflexivity|]. unfold key_from_asn1. cbn [ap_sbox ap_curve]. rewrite SK, O2, recognised by exact E. reflexivity.
Qed.
Lemma params_total g d Q sb le : well_formed g -> api_group g -> curve_nid_from_group g <> 0%Z \/ has_compressed_form (g_curve g) (g_gen g) ->
  exists prm, asn1_from_key (DKEY (ECKEY (Some (Binary g)) d Q) sb) le = Ok prm.
Proof.
  intros W AG H. unfold asn1_from_key. cbn [dk_ec ek_group dk_sbox]. cbv zeta. destruct (Z.eqb_spec (curve_nid_from_group g) 0) as [E|E].
  - destruct H as [H|H]; [contradiction|]. destruct (custom_total g le W AG H) as [c ->]. eexists. reflexivity.
  - destruct (curve_oid_back _ (nid_range g E)) as [o [-> _]]. eexists. reflexivity.
Qed.
(** The octets. *)
Lemma param_round d2i solve t g d Q sb der : reads_params d2i -> well_formed g -> api_group g -> good_solver (c_p (g_curve g)) solve -> sbox_ok sb ->
  param_encode (PKEY t (Some (DKEY (ECKEY (Some (Binary g)) d Q) sb))) = Ok der ->
  exists g', (g' = g \/ curve_nid_from_group g = 0%Z /\ g' = cofactor_one g) /\
    param_decode d2i solve t der = Some (DKEY (ECKEY (Some (Binary g')) None None) (stored sb)).
Proof.
  intros R W AG S SB H. unfold param_encode in H. cbn [pk_key pk_type] in H. destruct (asn1_from_key _ _) as [| |prm] eqn:E; try discriminate. cbn [bind] in H. injection H as <-.
  destruct (params_back solve g d Q sb _ prm W AG S SB E) as [P [g' [G K]]]. exists g'. split; [exact G|]. unfold param_decode. rewrite <- (app_nil_r (enc_params prm)), (reads_enc_params d2i _ _ R) by exact P. exact K.
Qed.
Lemma same_curve g g' : g' = g \/ curve_nid_from_group g = 0%Z /\ g' = cofactor_one g -> g_curve g' = g_curve g /\ g_gen g' = g_gen g.
Proof. intros [->|[_ ->]]; split; reflexivity. Qed.
Lemma is_dstu_ok t : key_type t <-> is_dstu t = true.
Proof. unfold key_type, is_dstu. rewrite orb_true_iff, !Z.eqb_eq. reflexivity. Qed.
Lemma priv_round d2i solve t g d Q sb p8 : reads_params d2i -> well_formed g -> api_group g -> good_solver (c_p (g_curve g)) solve -> sbox_ok sb -> key_pair g d Q ->
  priv_encode (key_of t g (Some d) Q sb) = Ok p8 ->
  exists g', (g' = g \/ curve_nid_from_group g = 0%Z /\ g' = cofactor_one g) /\ priv_decode d2i solve p8 = Some (key_of t g' (Some d) Q (stored sb)).
Proof.
  intros R W AG S SB K H. unfold priv_encode, key_of in H. cbn [pk_type pk_key dk_ec ek_priv] in H. destruct (is_dstu t) eqn:T; [|discriminate]. cbn [negb] in H.
  destruct (param_encode _) as [| |der] eqn:E; try discriminate. cbn [bind] in H. destruct (N.eqb_spec d 0) as [|D]; [discriminate|]. injection H as <-.
  destruct (param_round d2i solve t g (Some d) (Some Q) sb der R W AG S SB E) as [g' [G P]]. exists g'. split; [exact G|].
  destruct (same_curve g g' G) as [Gc Gg]. unfold priv_decode. cbn [ki_alg al_nid al_params ki_key]. rewrite T. cbn [negb]. rewrite P.
  set (bs := be_bytes _ d). assert (LB : length bs = N.to_nat (num_bytes d)) by apply be_bytes_length. pose proof (nbytes_pos d D).
  destruct (rev bs) as [|x l] eqn:EB; [apply (f_equal (@length N)) in EB; rewrite rev_length, LB in EB; cbn in EB; lia|]. rewrite <- EB, rev_involutive.
  unfold bs. rewrite be_val_be_bytes by (rewrite N2Nat.id; apply nbytes_gt). unfold add_public_key. cbn [dk_ec ek_group ek_priv ek_pub dk_sbox].
  unfold key_of. rewrite Gc, Gg. rewrite K. reflexivity.
Qed.
Lemma priv_total t g d Q sb : key_type t -> well_formed g -> api_group g -> curve_nid_from_group g <> 0%Z \/ has_compressed_form (g_curve g) (g_gen g) -> d <> 0 ->
  exists p8, priv_encode (key_of t g (Some d) Q sb) = Ok p8.
Proof.
  intros T W AG H D. apply is_dstu_ok in T. unfold priv_encode, param_encode, key_of. cbn [pk_type pk_key dk_ec ek_priv]. rewrite T. cbn [negb].
  destruct (params_total g (Some d) (Some Q) sb (is_le t) W AG H) as [prm ->]. cbn [bind]. destruct (N.eqb_spec d 0); [contradiction|]. eexists. reflexivity.
Qed.
Lemma pub_round d2i d2o solve t g d x y sb pub : reads_params d2i -> reads_octets d2o -> well_formed g -> api_group g -> good_solver (c_p (g_curve g)) solve -> sbox_ok sb ->
  on_curve (g_curve g) x y -> compressible (g_curve g) x \/ x = 0 ->
  pub_encode (key_of t g d (Some (x, y)) sb) = Ok pub ->
  exists g', (g' = g \/ curve_nid_from_group g = 0%Z /\ g' = cofactor_one g) /\ pub_decode d2i d2o solve pub = Some (key_of t g' None (Some (x, y)) (stored sb)).
Proof.
  intros R RO W AG S SB OC CO H. pose proof (get_facts g W AG) as F. unfold pub_encode, key_of in H. cbn [pk_type pk_key dk_ec ek_group ek_pub] in H. destruct (is_dstu t) eqn:T; [|discriminate]. cbn [negb] in H.
  destruct (param_encode _) as [| |der] eqn:E; try discriminate. cbn [bind] in H. cbv zeta in H. destruct (field_size _ =? 0); [discriminate|]. destruct (compress _ _ _) as [out|] eqn:C; [|discriminate]. injection H as <-.
  destruct (param_round d2i solve t g d (Some (Some (x, y))) sb der R W AG S SB E) as [g' [G P]]. exists g'. split; [exact G|].
  destruct (same_curve g g' G) as [Gc Gg]. unfold pub_decode. cbn [ki_alg al_nid al_params ki_key]. rewrite T. cbn [negb]. rewrite P. cbn [dk_ec ek_group ek_priv dk_sbox].
  destruct (compress_bytes _ _ _ _ C) as [Bo Lo]. pose proof (field_size_pos (g_curve g) ltac:(destruct F; lia)) as FP.
  assert (FS : field_size (g_curve g) < 2 ^ 31) by (destruct AG as [_ [_ [_ D]]]; unfold field_size; apply N.div_lt_upper_bound; lia).
  rewrite <- (app_nil_r (enc_octets _)), (reads_enc_octets d2o _ _ RO) by (destruct (is_le t); rewrite ?rev_length; lia). rewrite in_order_back by (intros ->; cbn in Lo; lia).
  rewrite Gc. rewrite (expand_compress _ solve x y _ out (proj1 W) S OC CO C). reflexivity.
Qed.
Lemma pub_total t g d x y sb : key_type t -> well_formed g -> api_group g -> curve_nid_from_group g <> 0%Z \/ has_compressed_form (g_curve g) (g_gen g) ->
  on_curve (g_curve g) x y -> has_compressed_form (g_curve g) (Some (x, y)) -> exists pub, pub_encode (key_of t g d (Some (x, y)) sb) = Ok pub.
Proof.
  intros T W AG H OC HC. apply is_dstu_ok in T. unfold pub_encode, param_encode, key_of. cbn [pk_type pk_key dk_ec ek_group ek_pub]. rewrite T. cbn [negb].
   destruct (params_total g d (@Some point (Some (x, y))) sb (is_le t) W AG H) as [prm ->]. cbn [bind]. cbv zeta. pose proof (field_size_pos (g_curve g) ltac:(pose proof (get_facts g W AG) as F; destruct F; lia)) as FP.
  destruct (N.eqb_spec (field_size (g_curve g)) 0) as [F0|_]; [lia|].
  destruct (compress_success _ x y (field_size (g_curve g)) (proj1 W) OC HC ltac:(lia)) as [out [-> _]]. eexists. reflexivity.
Qed.
