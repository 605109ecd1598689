(** When signing returns. *)
From Coq Require Import Lia ZArith.
From Verif Require Import Base Lib Model_Gf2m Model_Compress Model_Ec Model_Curves Model_Sign Spec_Gf2m Spec_Compress Spec_Curves Spec_Sign
  Proof_Gf2 Proof_Field Proof_Compress Proof_Compress2 Proof_Ec Proof_Ec2 Proof_Curves2 Proof_Curves3 Proof_Sign.

(** * Never *)
Lemma attempt_zero g d e : g_order g <> 0 -> pmul (g_curve g) e (g_gen g) <> None -> attempt g d 0 e = Running.
Proof.
  intros Hn He. unfold attempt. destruct (pmul _ _ _) as [[x y]|]; [|contradiction]. destruct (x =? 0); [reflexivity|].
  rewrite field_to_bn_ok by exact Hn. change (gmul (c_p (g_curve g)) 0 x) with 0. unfold int_of_field. rewrite N.mod_0_l by (apply N.pow_nonzero; lia). reflexivity.
Qed.
Lemma loop_running g d h src : forall fuel i, (forall j, exists e, src j = Some e /\ attempt g d h e = Running) -> sign_loop fuel g d h src i = Running.
Proof.
  induction fuel as [|f IH]; intros i H; [reflexivity|]. cbn [sign_loop]. destruct (H i) as [e [-> ->]]. apply IH, H.
Qed.
Lemma sign_never fuel g d Q tbs src : 1 < c_p (g_curve g) -> g_order g <> 0 -> tbs <> [] -> field_of_digest (degree (c_p (g_curve g))) tbs = 0 ->
  (forall i, exists e, src i = Some e /\ pmul (g_curve g) e (g_gen g) <> None) -> do_sign fuel (ECKEY (Some (Binary g)) (Some d) Q) tbs src = Running.
Proof.
  intros Hp Hn Ht Hf Hs. unfold do_sign. cbn [ek_priv ek_group]. destruct (N.eqb_spec (g_order g) 0); [contradiction|].
  rewrite hash_ok by (try assumption; apply Proof_Field.degree_pos; exact Hp). rewrite Hf. rewrite loop_running; [reflexivity|].
  intros j. destruct (Hs j) as [e [E H]]. exists e. split; [exact E|]. apply attempt_zero; assumption.
Qed.
Definition bad_digest : list N := zeros 31 ++ [128].
Lemma bad_std nid : (1160 <= nid <= 1165)%Z -> exists g, group_from_nid nid = Some g /\ well_formed g /\ field_of_digest (degree (c_p (g_curve g))) bad_digest = 0.
Proof.
  intros H. exists (std (Z.to_nat (nid - 1160))). rewrite from_nid. replace ((1160 <=? nid) && (nid <=? 1169))%Z with true by lia. split; [reflexivity|].
  set (i := Z.to_nat _). assert (Hi : (i < 6)%nat) by lia. split; [apply named; lia|].
  destruct i as [|[|[|[|[|[|i]]]]]]; [..|lia]; vm_compute; reflexivity.
Qed.

(** * Eventually *)
Lemma loop_stops g d h src : forall k i, (exists e, src (i + k)%nat = Some e /\ attempt g d h e <> Running) -> sign_loop (S k) g d h src i <> Running.
Proof.
  induction k as [|k IH]; intros i [e [Es Ea]]; cbn [sign_loop].
  - rewrite Nat.add_0_r in Es. rewrite Es. destruct (attempt g d h e); [contradiction|discriminate..].
  - destruct (src i) as [e'|]; [|discriminate]. destruct (attempt g d h e'); [|discriminate..].
    apply IH. exists e. split; [cbn; rewrite plus_n_Sm; exact Es|exact Ea].
Qed.
Lemma do_sign_stops g d Q tbs src k e : 1 < c_p (g_curve g) -> src k = Some e -> attempt g d (field_of_digest (degree (c_p (g_curve g))) tbs) e <> Running ->
  do_sign (S k) (ECKEY (Some (Binary g)) (Some d) Q) tbs src <> Running.
Proof.
  intros Hp Es Ea. unfold do_sign. cbn [ek_priv ek_group]. destruct (g_order g =? 0); [discriminate|].
  destruct tbs as [|b t]; [discriminate|]. rewrite hash_ok by (try discriminate; apply Proof_Field.degree_pos; exact Hp).
  pose proof (loop_stops g d (field_of_digest (degree (c_p (g_curve g))) (b :: t)) src k 0) as L.
  destruct (sign_loop _ _ _ _ _ _) as [| |[s r]]; [exfalso; apply L; [exists e; auto|reflexivity]|discriminate|].
  destruct (bn_encode s _) as [[? ?]|]; [|discriminate]. destruct (bn_encode r _) as [[? ?]|]; [|discriminate]. destruct (_ || _); discriminate.
Qed.

Lemma pmul_inf c j : pmul c j None = None.
Proof. destruct j as [|k]; [reflexivity|]. cbn [pmul]. induction k as [k IH|k IH|]; cbn [pmulp]; [rewrite IH|rewrite IH|]; reflexivity. Qed.
Lemma pmul_minus c n k P : nonsing c -> curve_point c P -> pmul c n P = None -> k <= n -> pmul c (n - k) P = pneg (pmul c k P).
Proof. intros H HP. open_c c H. rewrite point_pt in HP by assumption. apply pmul_sub; assumption. Qed.
Lemma mult_same_x c G i j x y y' : nonsing c -> curve_point c G -> i < j -> pmul c i G = Some (x, y) -> pmul c j G = Some (x, y') -> pmul c (j - i) G = None \/ pmul c (i + j) G = None.
Proof.
  intros H Gc Hij Ei Ej. destruct (multiples c i j G H Gc) as [_ [_ [Ma _]]]. destruct (multiples c (j - i) i G H Gc) as [_ [_ [Mb _]]]. replace (j - i + i) with j in Mb by lia.
  open_c c H. rewrite point_pt in Gc by assumption.
  assert (Pi : pt p a b (Some (x, y))) by (rewrite <- Ei; apply pmul_pt; assumption).
  assert (Pj : pt p a b (Some (x, y'))) by (rewrite <- Ej; apply pmul_pt; assumption).
  destruct (same_x p a b Hp Hirr x y y' Pi Pj) as [->| ->].
  - left. assert (Pd : pt p a b (pmul (CURVE p a b) (j - i) G)) by (apply pmul_pt; assumption).
    rewrite Ei, Ej in Mb. apply (f_equal (fun R => padd (CURVE p a b) R (pneg (Some (x, y))))) in Mb.
    rewrite padd_pneg in Mb by assumption. rewrite padd_sub in Mb by assumption. symmetry. exact Mb.
  - right. rewrite Ma, Ei, Ej. change (Some (x, N.lxor x y)) with (pneg (Some (x, y))). apply padd_pneg; assumption.
Qed.
Lemma nodup_map_in {A B} (f : A -> B) l : (forall x y, In x l -> In y l -> f x = f y -> x = y) -> NoDup l -> NoDup (map f l).
Proof.
  induction l as [|a l IH]; intros H N; [constructor|]. inversion_clear N. cbn. constructor.
  - intros Hin. apply in_map_iff in Hin as [b [E Hb]]. apply H0. rewrite <- (H b a); [exact Hb|right; exact Hb|left; reflexivity|exact E].
  - apply IH; [|assumption]. intros x y Hx Hy. apply H; right; assumption.
Qed.
Section Good.
Variable g : group.
Hypothesis W : well_formed g.
Let c := g_curve g.
Let p := c_p c.
Let n := g_order g.
Let G := g_gen g.
Lemma Hp : 1 < p.
Proof. exact (wf_p g W). Qed.
Lemma Hn : n <> 0.
Proof. exact (wf_n g W). Qed.
Lemma G_pt : curve_point c G /\ G <> None.
Proof. pose proof W as W0. destruct W0 as [_ [_ [[x [y [E [H _]]]] _]]]. unfold G. rewrite E. split; [exact H|discriminate]. Qed.
Lemma coprime_finite k : N.gcd k n = 1 -> pmul c k G <> None.
Proof.
  intros H E. destruct (N.eq_dec k 0) as [->|Hk]; [rewrite N.gcd_0_l in H; pose proof W as W0; destruct W0 as [_ [_ [_ [H1 _]]]]; fold n in H1; lia|].
  destruct (N.gcd_bezout_pos k n ltac:(lia)) as [u [v Huv]]. rewrite H in Huv.
  destruct G_pt as [Gc G0]. pose proof (wf_nonsing g W) as NS.
  destruct (multiples c u k G NS Gc) as [_ [M1 [_ Mm]]]. destruct (multiples c 1 (v * n) G NS Gc) as [_ [_ [Ma _]]]. destruct (multiples c v n G NS Gc) as [_ [_ [_ Mv]]].
  rewrite Huv, E in Mm. rewrite Ma, M1, Mv in Mm. pose proof W as W0. destruct W0 as [_ [_ [_ [_ [_ Ho]]]]]. change (pmul c n G = None) in Ho. rewrite Ho in Mm.
  rewrite !pmul_inf in Mm. destruct G as [[x y]|]; [cbn in Mm; discriminate|contradiction].
Qed.
Lemma same_x_mult i j x y y' : i < j -> pmul c i G = Some (x, y) -> pmul c j G = Some (x, y') -> pmul c (j - i) G = None \/ pmul c (i + j) G = None.
Proof. apply mult_same_x; [exact (wf_nonsing g W)|apply G_pt]. Qed.

Variable h : N.
Hypothesis Hh : elem p h.
Hypothesis Hh0 : h <> 0.
Variable K : N.
Hypothesis HK : 2 ^ degree p <= K * 2 ^ (N.size n - 1).
Hypothesis Hco : forall k, 1 <= k <= 2 * (K + 1) -> N.gcd k n = 1.

Let xs : list N := map (fun i => N.of_nat i) (seq 1 (N.to_nat (K + 1))).
Let rv (i : N) : N := match pmul c i G with Some (x, _) => gmul p h x | None => 0 end.
Lemma rv_fin i : 1 <= i <= K + 1 -> exists x y, pmul c i G = Some (x, y) /\ rv i = gmul p h x /\ elem p x.
Proof.
  intros Hi. unfold rv. destruct (pmul c i G) as [[x y]|] eqn:E.
  - exists x, y. split; [reflexivity|]. split; [reflexivity|]. apply (multiples_compressible g i x y W E).
  - exfalso. revert E. apply coprime_finite. apply Hco. lia.
Qed.
Lemma rv_inj i j : 1 <= i <= K + 1 -> 1 <= j <= K + 1 -> rv i = rv j -> i = j.
Proof.
  intros Hi Hj E. destruct (rv_fin i Hi) as [x [y [Ei [Ri Ex]]]]. destruct (rv_fin j Hj) as [x' [y' [Ej [Rj Ex']]]].
  assert (x' = x) as ->.
  { rewrite Ri, Rj in E. assert (Hirr : irreducible p) by apply (wf_nonsing g W).
    apply (elem_eq p Hp); [assumption..|]. apply (cancel p Hp Hirr h); [apply (nz p Hp); assumption|].
    pose proof (eqm_equiv p). transitivity (gmul p h x'); [symmetry; apply gmul_eqm; exact Hp|]. rewrite <- E. apply gmul_eqm. exact Hp. }
  destruct (N.lt_trichotomy i j) as [L|[L|L]]; [|exact L|]; exfalso.
  - destruct (same_x_mult i j x y y' L Ei Ej) as [F|F]; revert F; apply coprime_finite, Hco; lia.
  - destruct (same_x_mult j i x y' y L Ej Ei) as [F|F]; revert F; apply coprime_finite, Hco; lia.
Qed.
Lemma some_r : exists i, 1 <= i <= K + 1 /\ int_of_field n (rv i) <> 0.
Proof.
  destruct (existsb (fun i => negb (int_of_field n (rv i) =? 0)) xs) eqn:E.
  - apply existsb_exists in E as [i [Hin Hi]]. exists i. split.
    + apply in_map_iff in Hin as [j [<- Hj]]. apply in_seq in Hj. lia.
    + apply negb_true_iff, N.eqb_neq in Hi. exact Hi.
  - exfalso. set (B := 2 ^ (N.size n - 1)) in *. assert (HB : B <> 0) by (apply N.pow_nonzero; lia).
    assert (Hz : forall i, 1 <= i <= K + 1 -> rv i = B * (rv i / B) /\ rv i / B < K).
    { intros i Hi. assert (Z : int_of_field n (rv i) = 0).
      { destruct (N.eqb_spec (int_of_field n (rv i)) 0) as [Z|Z]; [exact Z|]. exfalso.
        enough (existsb (fun i => negb (int_of_field n (rv i) =? 0)) xs = true) by congruence. apply existsb_exists. exists i. split.
        - apply in_map_iff. exists (N.to_nat i). split; [lia|]. apply in_seq. lia.
        - apply negb_true_iff, N.eqb_neq. exact Z. }
      unfold int_of_field in Z. fold B in Z. split; [pose proof (N.div_mod (rv i) B HB); lia|]. apply N.div_lt_upper_bound; [exact HB|].
      destruct (rv_fin i Hi) as [x [y [_ [-> _]]]]. pose proof (gmul_elem p Hp h x) as L. unfold elem in L. lia. }
    assert (ND : NoDup (map (fun i => rv i / B) xs)).
    { unfold xs. rewrite map_map. apply nodup_map_in; [|apply seq_NoDup]. intros i j Hi Hj Eq. apply in_seq in Hi, Hj.
      assert (N.of_nat i = N.of_nat j); [|lia]. apply rv_inj; [lia..|]. destruct (Hz (N.of_nat i) ltac:(lia)) as [-> _]. destruct (Hz (N.of_nat j) ltac:(lia)) as [-> _]. rewrite Eq. reflexivity. }
    apply (NoDup_incl_length (l' := map N.of_nat (seq 0 (N.to_nat K)))) in ND.
    + unfold xs in ND. rewrite !map_length, !seq_length in ND. lia.
    + intros v Hv. apply in_map_iff in Hv as [i [<- Hi]]. unfold xs in Hi. apply in_map_iff in Hi as [j [<- Hj]]. apply in_seq in Hj.
      destruct (Hz (N.of_nat j) ltac:(lia)) as [_ L]. apply in_map_iff. exists (N.to_nat (rv (N.of_nat j) / B)). split; [apply N2Nat.id|]. apply in_seq. revert L. generalize (rv (N.of_nat j) / B). intros q L. lia.
Qed.
Lemma good_nonce d : K + 1 < n -> exists e s r, 1 <= e < n /\ attempt g d h e = Done (s, r).
Proof.
  intros HKn. destruct some_r as [i [Hi Hr]]. destruct (rv_fin i Hi) as [x [y [Ei [Ri Ex]]]]. rewrite Ri in Hr.
  assert (Hx : x <> 0).
  { intros ->. apply Hr. unfold gmul. rewrite clmul_0_r. change (pmod 0 p) with 0. unfold int_of_field. apply N.mod_0_l, N.pow_nonzero. lia. }
  set (r := int_of_field n (gmul p h x)) in *.
  assert (A : forall e yy, 1 <= e < n -> pmul c e G = Some (x, yy) -> (e + d * r) mod n <> 0 -> exists s r, attempt g d h e = Done (s, r)).
  { intros e yy He Ep Hs. exists ((e + d * r) mod n), r. unfold attempt. change (g_curve g) with c. change (g_gen g) with G. change (g_order g) with n. rewrite Ep.
    destruct (N.eqb_spec x 0); [contradiction|]. rewrite field_to_bn_ok by exact Hn. change (c_p c) with p. fold r. destruct (N.eqb_spec r 0); [contradiction|].
    rewrite add_quick by (lia || apply N.mod_lt; exact Hn). rewrite N.add_mod_idemp_l by exact Hn. rewrite (N.add_comm (d * r)).
    destruct (N.eqb_spec ((e + d * r) mod n) 0); [contradiction|reflexivity]. }
  destruct (N.eq_dec ((i + d * r) mod n) 0) as [Z|Z].
  - assert (E2 : pmul c (n - i) G = Some (x, N.lxor x y)).
    { change (Some (x, N.lxor x y)) with (pneg (Some (x, y))). rewrite <- Ei. apply pmul_minus; [exact (wf_nonsing g W)|apply G_pt|apply W|lia]. }
    destruct (A (n - i) (N.lxor x y)) as [s [r' H]]; [lia|exact E2| |exists (n - i), s, r'; split; [lia|exact H]].
    intros Z2. assert (D : (2 * i) mod n = 0).
    { apply N.mod_divide in Z as [u Hu]; [|exact Hn]. apply N.mod_divide in Z2 as [v Hv]; [|exact Hn]. apply N.mod_divide; [exact Hn|].
      (* i + dr = un, n - i + dr = vn *)
      exists (u + 1 - v). rewrite N.mul_sub_distr_r, N.mul_add_distr_r, <- Hu, <- Hv. lia. }
    apply N.mod_divide in D; [|exact Hn]. assert (Dn : (n | N.gcd (2 * i) n)) by (apply N.gcd_greatest; [exact D|apply N.divide_refl]).
    assert (H2 : 1 <= 2 * i <= 2 * (K + 1)) by (clear - Hi; lia). rewrite (Hco (2 * i) H2) in Dn. apply N.divide_1_r in Dn. clear - Dn HKn. lia.
  - destruct (A i y ltac:(lia) Ei Z) as [s [r' H]]. exists i, s, r'. split; [lia|exact H].
Qed.
End Good.

(** The standard curves meet the conditions with K = 8. *)
Definition nonce_check (g : group) : bool :=
  let n := g_order g in
  (2 ^ degree (c_p (g_curve g)) <=? 8 * 2 ^ (N.size n - 1)) && (9 <? n) && forallb (fun k => N.gcd (N.of_nat k) n =? 1) (seq 1 18).
Lemma nonce_check_std i : (i < 10)%nat -> nonce_check (std i) = true.
Proof. intros H. destruct i as [|[|[|[|[|[|[|[|[|[|i]]]]]]]]]]; [..|lia]; vm_compute; reflexivity. Qed.
Lemma good_nonce_check g d h : well_formed g -> nonce_check g = true -> elem (c_p (g_curve g)) h -> h <> 0 -> exists e s r, 1 <= e < g_order g /\ attempt g d h e = Done (s, r).
Proof.
  intros W C Hh H0. unfold nonce_check in C. apply andb_true_iff in C as [C C3]. apply andb_true_iff in C as [C1 C2]. apply N.leb_le in C1. apply N.ltb_lt in C2.
  apply (good_nonce g W h Hh H0 8).
  - exact C1.
  - intros k Hk. rewrite forallb_forall in C3. specialize (C3 (N.to_nat k)). rewrite N2Nat.id in C3. apply N.eqb_eq, C3. apply in_seq. lia.
  - exact C2.
Qed.
Lemma field_of_digest_elem p tbs : 1 < p -> elem p (field_of_digest (degree p) tbs).
Proof.
  intros Hp. unfold field_of_digest. destruct (_ =? 0); [apply elem_1; exact Hp|]. apply N.mod_lt, N.pow_nonzero. lia.
Qed.
Lemma std_returns nid g d Q tbs src : group_from_nid nid = Some g -> field_of_digest (degree (c_p (g_curve g))) tbs <> 0 ->
  (forall e, 1 <= e < g_order g -> exists i, src i = Some e) -> exists fuel, do_sign fuel (ECKEY (Some (Binary g)) (Some d) Q) tbs src <> Running.
Proof.
  intros Hg Hf Hs. rewrite from_nid in Hg. destruct ((1160 <=? nid) && _)%Z eqn:Hr; [|discriminate]. injection Hg as <-. set (i := Z.to_nat (nid - 1160)) in *.
  assert (Hi : (i < 10)%nat) by lia. assert (W : well_formed (std i)) by (apply named; exact Hi). assert (Hp := wf_p _ W).
  destruct (good_nonce_check (std i) d _ W (nonce_check_std i Hi) (field_of_digest_elem _ tbs Hp) Hf) as [e [s [r [He Ha]]]].
  destruct (Hs e He) as [k Ek]. exists (S k). apply (do_sign_stops _ _ _ _ _ _ e Hp Ek). rewrite Ha. discriminate.
Qed.
(** More steps do not change the result. *)
Lemma loop_mono g d h src : forall f1 f2 i, (f1 <= f2)%nat -> sign_loop f1 g d h src i <> Running -> sign_loop f2 g d h src i = sign_loop f1 g d h src i.
Proof.
  induction f1 as [|f IH]; intros f2 i L H; [contradiction|]. destruct f2 as [|f2]; [lia|]. cbn [sign_loop] in *. destruct (src i); [|reflexivity].
  destruct (attempt _ _ _ _); [|reflexivity..]. apply IH; [lia|exact H].
Qed.
Lemma sign_mono key tbs src f1 f2 : (f1 <= f2)%nat -> do_sign f1 key tbs src <> Running -> do_sign f2 key tbs src = do_sign f1 key tbs src.
Proof.
  intros L. unfold do_sign. destruct (ek_priv key); [|reflexivity]. destruct (ek_group key) as [[g|]|]; [|reflexivity..]. destruct (_ =? 0); [reflexivity|].
  destruct (hash_to_field _ _) as [h|]; [|reflexivity]. intros H. rewrite (loop_mono g n h src f1 f2 0 L); [reflexivity|]. intros E. rewrite E in H. contradiction.
Qed.
Lemma never_std nid : (1160 <= nid <= 1165)%Z -> exists g digest, group_from_nid nid = Some g /\ bytesn 32 digest /\
  forall d Q src, (forall i, exists e, src i = Some e /\ e < g_order g /\ pmul (g_curve g) e (g_gen g) <> None) ->
  forall fuel, do_sign fuel (ECKEY (Some (Binary g)) (Some d) Q) digest src = Running.
Proof.
  intros H. destruct (bad_std nid H) as [g [E [W B]]]. exists g, bad_digest. split; [exact E|]. split; [split; [apply bytesb_ok; reflexivity|reflexivity]|].
  intros d Q src Hs fuel. apply sign_never; [apply wf_p; exact W|apply wf_n; exact W|discriminate|exact B|].
  intros i. destruct (Hs i) as [e [Es [_ He]]]. exists e. auto.
Qed.
Lemma large_returns nid g d Q tbs src : (1166 <= nid)%Z -> group_from_nid nid = Some g -> bytesn 32 tbs ->
  (forall e, 1 <= e < g_order g -> exists i, src i = Some e) -> exists fuel, do_sign fuel (ECKEY (Some (Binary g)) (Some d) Q) tbs src <> Running.
Proof.
  intros Hnid Hg [Hb Hl] Hs. apply (std_returns nid); [assumption..| |exact Hs].
  assert (Hd : 256 <= degree (c_p (g_curve g))).
  { rewrite from_nid in Hg. destruct ((1160 <=? nid) && _)%Z eqn:Hr; [|discriminate]. injection Hg as <-. set (i := Z.to_nat (nid - 1160)).
    assert (Hi : (6 <= i < 10)%nat) by lia. destruct i as [|[|[|[|[|[|[|[|[|[|i]]]]]]]]]]; try lia; vm_compute; discriminate. }
  unfold field_of_digest. destruct (N.eqb_spec (le_val tbs) 0) as [|H0]; [discriminate|]. rewrite N.mod_small; [exact H0|].
  pose proof (le_val_lt tbs Hb) as L. rewrite Hl in L. eapply N.lt_le_trans; [exact L|]. change (256 ^ N.of_nat 32) with (2 ^ 256). apply N.pow_le_mono_r; [lia|exact Hd].
Qed.
Lemma zero_nonce fuel g d Q tbs src : g_order g <> 0 -> 1 < c_p (g_curve g) -> src 0%nat = Some 0 -> do_sign (S fuel) (ECKEY (Some (Binary g)) (Some d) Q) tbs src = Failed.
Proof.
  intros Hn Hp E. unfold do_sign. cbn [ek_priv ek_group sign_loop]. destruct (_ =? 0); [reflexivity|]. destruct (hash_to_field _ _); [|reflexivity].
  rewrite E. reflexivity.
Qed.
Lemma sign_format fuel g d Q tbs src sig : 1 < c_p (g_curve g) -> g_order g <> 0 -> ranged (g_order g) src ->
  do_sign fuel (ECKEY (Some (Binary g)) (Some d) Q) tbs src = Done sig ->
  let size := N.to_nat (num_bytes (g_order g)) in
  length sig = (2 * size)%nat /\ bytes sig /\
  exists s r e k, 1 <= s < g_order g /\ 1 <= r < g_order g /\ be_val (firstn size sig) = s /\ be_val (skipn size sig) = r /\
    src k = Some e /\ signature_of g d e tbs s r.
Proof.
  intros Hp Hn Hr H. apply sign_done in H as [s [r [e [k [Hs [Hr' [Es [Hsg ->]]]]]]]]; [|assumption..]. cbv zeta. unfold sig_bytes.
  set (K := N.to_nat _). assert (L : forall v, length (be_bytes K v) = K) by (intros v; apply be_bytes_length).
  split; [rewrite app_length, !L; lia|]. split; [apply bytes_app; apply be_bytes_bytes|].
  assert (F : forall v, v < g_order g -> be_val (be_bytes K v) = v).
  { intros v Hv. apply be_val_be_bytes. unfold K. rewrite N2Nat.id. pose proof (size_bytes (g_order g)). lia. }
  exists s, r, e, k. split; [exact Hs|]. split; [exact Hr'|]. split; [|split; [|split; assumption]].
  - rewrite firstn_app, L, Nat.sub_diag, firstn_O, app_nil_r. rewrite <- (L s) at 1. rewrite firstn_all. apply F. lia.
  - rewrite skipn_app, L, Nat.sub_diag. rewrite skipn_all2 by (rewrite L; lia). cbn [app skipn]. apply F. lia.
Qed.
Lemma generate_pair fuel g d0 q0 src k : well_formed g -> ranged (g_order g) src -> generate_key fuel (ECKEY (Some (Binary g)) d0 q0) src = Done k ->
  exists d Q, k = ECKEY (Some (Binary g)) (Some d) (Some Q) /\ 1 <= d < g_order g /\ key_pair g d Q.
Proof.
  intros W R H. apply generate_iff in H as [i [d [_ [_ [Es [Hd ->]]]]]]; [|apply wf_n; exact W]. exists d, (pneg (pmul (g_curve g) d (g_gen g))).
  split; [reflexivity|]. split; [|reflexivity]. specialize (R _ _ Es). lia.
Qed.
