(** Keys from IIT attributes, on the heap. *)
From Coq Require Import ZArith Lia Permutation.
From Verif Require Proof_Keylib.
From Verif Require Import Base Lib Model_Gf2m Model_Compress Model_Ec Model_Params Model_Curves Model_Sign Model_Asn1 Model_Pmeth Model_Key Model_Utils Model_Ameth Model_Ctx Model_Iit
  Spec_Keylib Spec_Sign Spec_Key Spec_Ctx Spec_Iit Proof_Ctx Proof_Ctx2.

(** The group as a value; None: refused. *)
Definition iit_group (solve : N -> N -> option N) (spec : custom) (p : N) : option group :=
  match new_curve p (Z.abs_N (cu_a spec)) (be_val (cu_b spec)) with
  | None => None
  | Some c => match expand solve (cu_bp spec) c with
              | None => None
              | Some G => if (cu_n spec <? 0)%Z then None else set_generator c G (Z.to_N (cu_n spec)) 1
              end
  end.

Lemma set_affine_on : forall c x y P, set_affine c x y = Some P -> is_on_curve c P = true.
Proof. intros c x y P E. unfold set_affine in E. destruct (on_curveb c x y) eqn:O; [|discriminate]. injection E as <-. exact O. Qed.
Lemma expand_on : forall solve s c G, expand solve s c = Some G -> is_on_curve c G = true.
Proof.
  intros solve s c G E. unfold expand in E. destruct (N.of_nat (length s) <? field_size c); [discriminate|]. cbv zeta in E.
  destruct (be_val s =? 0); [exact (set_affine_on _ _ _ _ E)|]. destruct (bn_trace _ _) as [t|]; [|discriminate].
  destruct (ginv _ _); [|discriminate]. destruct (solve _ _); [|discriminate]. exact (set_affine_on _ _ _ _ E).
Qed.

Section Iit.
Variable U : Prop.
Local Notation wp := (wpu U).
Variable malloc : nat -> heap -> option nat.
Variable solve : N -> N -> option N.
Variable unpack : asn1_val -> option attr_spec.
Hypothesis HA : allocator malloc.
Hypothesis HF : never_fails malloc.

Lemma number_wp : forall a (post : option N -> heap -> Prop) F, post (getPrivateKeyNum a) F -> wp (h_getPrivateKeyNum malloc a) post F.
Proof.
  intros a post F H. unfold h_getPrivateKeyNum. unfold getPrivateKeyNum in H. destruct (first_string (at_vals a)) as [data|]; [|wps HA; exact H].
  destruct data as [|b t]; wps HA; try exact H; try contradiction; try (destruct (OOM HF)).
Qed.
Lemma group_wp : forall spec p (post : option nat -> heap -> Prop) F, makePoly (cu_field spec) = Some p ->
  match iit_group solve spec p with
  | Some g => forall a, post (Some a) ((a, OGroup (Binary g)) :: F)
  | None => post None F
  end -> wp (h_makeECGROUPFromSpec malloc solve spec) post F.
Proof.
  intros spec p post F Ep H. unfold h_makeECGROUPFromSpec, h_makePoint. rewrite Ep. unfold iit_group in H.
  destruct (new_curve p _ _) as [c|]; [|wps HA; exact H].
  wps HA; try (destruct (OOM HF)). destruct (expand solve (cu_bp spec) c) as [G|] eqn:Ee; [|wps HA; exact H].
  wps HA; rewrite ?(expand_on _ _ _ _ Ee); wps HA; try (destruct (OOM HF)).
  destruct (cu_n spec <? 0)%Z; [wps HA; exact H|]. destruct (set_generator c G (Z.to_N (cu_n spec)) 1) as [g|]; wps HA; try exact H. apply H.
Qed.
Lemma first_aspec_hd : forall vs, first_aspec unpack vs = hd_error (flat_map (fun v => match unpack v with Some s => [s] | None => [] end) vs).
Proof. induction vs as [|v t IH]; [reflexivity|]. cbn. destruct (unpack v); [reflexivity|exact IH]. Qed.
Lemma makeECGROUP_wp : forall a (post : option nat -> heap -> Prop) F,
  match hd_error (curve_specs unpack a) with
  | None => post None F
  | Some s => match makePoly (cu_field (as_spec s)) with
              | None => U
              | Some p => match iit_group solve (as_spec s) p with
                          | Some g => forall a, post (Some a) ((a, OGroup (Binary g)) :: F)
                          | None => post None F
                          end
              end
  end -> wp (h_makeECGROUP malloc solve unpack a) post F.
Proof.
  intros a post F H. unfold h_makeECGROUP. rewrite first_aspec_hd. fold (curve_specs unpack a). destruct (hd_error (curve_specs unpack a)) as [s|]; [|wps HA; exact H].
  wps HA; [|destruct (OOM HF)]. destruct (makePoly (cu_field (as_spec s))) as [q|] eqn:Ep.
  - apply (group_wp _ q _ _ Ep). destruct (iit_group solve (as_spec s) q) as [g|].
    + intros r. wps HA. apply H.
    + wps HA. exact H.
  - unfold h_makeECGROUPFromSpec. rewrite Ep. apply wp_undef. exact H.
Qed.
Lemma makePKey_wp : forall ca ka (post : option (nat * evp_key) -> heap -> Prop) F,
  match hd_error (curve_specs unpack ca) with
  | None => post None F
  | Some s => match makePoly (cu_field (as_spec s)) with
              | None => U
              | Some p => match iit_group solve (as_spec s) p, getPrivateKeyNum ka with
                          | Some g, Some d => forall r y, val_k y = DKEY (ECKEY (Some (Binary g)) (Some d) (Some (pneg (pmul (g_curve g) d (g_gen g))))) None ->
                                              forall h, Permutation h ((r, OTemp) :: foot_k y ++ F) -> post (Some (r, evp_of NID_dstu4145le (Some y))) h
                          | Some g, None => forall a h, Permutation h ((a, OGroup (Binary g)) :: F) -> post None h
                          | None, _ => post None F
                          end
              end
  end -> wp (h_makePKey malloc solve unpack ca ka) post F.
Proof.
  intros ca ka post F H. unfold h_makePKey. wps HA; [|destruct (OOM HF)]. apply number_wp. wps HA. apply makeECGROUP_wp.
  destruct (hd_error (curve_specs unpack ca)) as [s|]; [|destruct (getPrivateKeyNum ka); wps HA; exact H].
  destruct (makePoly (cu_field (as_spec s))) as [q|]; [|exact H].
  destruct (iit_group solve (as_spec s) q) as [g|]; [|destruct (getPrivateKeyNum ka); wps HA; exact H].
  destruct (getPrivateKeyNum ka) as [d|]; [|intros a; wps HA; apply (H a); perm].
  intros a. apply wp_bind. apply (key_new_wp U malloc HA); [|intros OOM; destruct (OOM HF)].
  intros k e. unfold foot_k, opt_cell. cbn [y_ptr y_ec y_val y_sbox option_map fst app]. wps HA; [|destruct (OOM HF)].
  unfold key_ec. wps HA; [|destruct (OOM HF)]. unfold set_private. wps HA; [|destruct (OOM HF)]. unfold h_add_public_key. wps HA; [|destruct (OOM HF)].
  cbn [add_public_key ek_group ek_priv ek_pub]. wps HA. unfold set_type, pkey_free. wps HA; [|destruct (OOM HF)]. unfold assign, pkey_free. wps HA; [|destruct (OOM HF)].
  set (Y := KX k e (ECKEY (Some (Binary g)) (Some d) (Some (pneg (pmul (g_curve g) d (g_gen g))))) None).
  change (Some k) with (option_map y_ptr (Some Y)). change (NID_dstu4145le, option_map y_ptr (Some Y)) with (evp_of NID_dstu4145le (Some Y)).
  apply (H _ Y eq_refl). unfold foot_k, Y, opt_cell. cbn. perm.
Qed.
End Iit.

(** No call runs for ever. *)
Definition ends {A} (m : M A) : Prop := forall s, m s <> Loop.
Lemma ends_bind : forall A B (m : M A) (f : A -> M B), ends m -> (forall a, ends (f a)) -> ends (bindM m f).
Proof. intros A B m f Hm Hf s. unfold bindM. pose proof (Hm s) as N0. destruct (m s) as [| |[a s']]; [discriminate|congruence|apply Hf]. Qed.
Lemma ends_ret : forall A (a : A), ends (ret a). Proof. intros A a s. discriminate. Qed.
Lemma ends_undef : forall A, ends (@undef A). Proof. intros A s. discriminate. Qed.
Lemma ends_get : forall p, ends (get p). Proof. intros p [h n]. unfold get. destruct (live h p); discriminate. Qed.
Lemma ends_put : forall p o, ends (put p o). Proof. intros p o [h n]. unfold put. destruct (live h p); discriminate. Qed.
Lemma ends_free : forall p, ends (free p). Proof. intros p [h n]. unfold free. destruct (live h p); discriminate. Qed.
Lemma ends_new : forall ml o, ends (new ml o). Proof. intros ml o [h n]. unfold new. destruct (ml n h); discriminate. Qed.
Lemma ends_try : forall ml, ends (try ml). Proof. intros ml [h n]. unfold try. discriminate. Qed.
Ltac ends := repeat (cbv zeta; match goal with
  | |- ends (bindM _ _) => apply ends_bind; [|intro]
  | |- ends (ret _) => apply ends_ret
  | |- ends undef => apply ends_undef
  | |- ends (get _) => apply ends_get
  | |- ends (put _ _) => apply ends_put
  | |- ends (free _) => apply ends_free
  | |- ends (new _ _) => apply ends_new
  | |- ends (try _) => apply ends_try
  | |- ends (match ?x with _ => _ end) => destruct x
  | |- ends (?c _ _ _ _ _) => unfold c | |- ends (?c _ _ _ _) => unfold c | |- ends (?c _ _ _) => unfold c | |- ends (?c _ _) => unfold c | |- ends (?c _) => unfold c | |- ends ?c => unfold c
  end).
Lemma makePKey_ends : forall ml solve unpack ca ka, ends (h_makePKey ml solve unpack ca ka).
Proof. intros ml solve unpack ca ka. ends. Qed.
Lemma evp_free_ends : forall k, ends (h_evp_free k).
Proof. intros k. ends. Qed.

(** The group as a value is the one described. *)
Lemma plain_poly : forall f, plain_field f -> exists p, makePoly f = Some p /\ poly_with (Spec_Keylib.exponents f) p.
Proof.
  intros [m mid] H. unfold plain_field, Spec_Keylib.exponents in H. cbn [bf_m bf_poly] in H.
  assert (forall x, (0 <= x < 2 ^ 31)%Z -> asn1_get x = x) as G by (intros x Hx; apply Proof_Keylib.asn1_get_small; lia).
  unfold makePoly. cbn [bf_m bf_poly]. inversion H as [|? ? H1 H2]; subst. destruct mid as [k|k j l]; cbn [app] in H2.
  - inversion H2 as [|? ? H3 H4]; subst. rewrite (G m), (G k) by assumption.
    apply (Proof_Keylib.arr2poly_with [m; k; 0%Z]). repeat (apply Forall_cons; [lia|]). apply Forall_nil.
  - inversion H2 as [|? ? H3 H4]; subst. inversion H4 as [|? ? H5 H6]; subst. inversion H6 as [|? ? H7 H8]; subst.
    rewrite (G m), (G k), (G j), (G l) by assumption.
    apply (Proof_Keylib.arr2poly_with [m; k; j; l; 0%Z]). repeat (apply Forall_cons; [lia|]). apply Forall_nil.
Qed.
Lemma iit_group_described : forall solve c p g, makePoly (cu_field c) = Some p -> poly_with (Spec_Keylib.exponents (cu_field c)) p ->
  (iit_group solve c p = Some g <-> described solve c g).
Proof.
  intros solve c p g Ep Hp. unfold iit_group, described, new_curve, set_generator. cbv zeta. split.
  - intros E. destruct ((weight p =? 3) || (weight p =? 5)) eqn:W; [|discriminate].
    destruct (expand solve (cu_bp c) _) as [G|] eqn:Ee; [|discriminate].
    destruct (Z.ltb_spec (cu_n c) 0) as [L|L]; [discriminate|]. destruct (N.eqb_spec (Z.to_N (cu_n c)) 0) as [Z0|Z0]; [discriminate|]. cbn [orb] in E.
    cbn [c_p] in E. destruct (N.ltb_spec (num_bits p + 1) (num_bits (Z.to_N (cu_n c)))) as [B|B]; [discriminate|]. injection E as <-.
    cbn [g_curve g_gen g_order g_cofactor c_p c_a c_b]. split; [exact Hp|]. split; [apply Bool.orb_true_iff in W; destruct W as [W|W]; apply N.eqb_eq in W; auto|].
    split; [reflexivity|]. split; [reflexivity|]. split; [exact Ee|]. split; [lia|]. split; [lia|]. split; [exact B|reflexivity].
  - intros (H1 & H2 & H3 & H4 & H5 & H6 & H7 & H8 & H9).
    assert (c_p (g_curve g) = p) as Ec by (eapply Proof_Keylib.poly_with_unique; [|exact H1|exact Hp]; intros x; split; auto).
    destruct g as [[gp ga gb] G n co]. cbn [g_curve g_gen g_order g_cofactor c_p c_a c_b] in *. subst.
    assert ((weight p =? 3) || (weight p =? 5) = true) as -> by (apply Bool.orb_true_iff; destruct H2 as [-> | ->]; auto). rewrite H5.
    destruct (Z.ltb_spec (cu_n c) 0) as [L|L]; [lia|]. rewrite <- H7, N2Z.id. cbn [c_p].
    destruct (N.eqb_spec n 0) as [Z0|Z0]; [lia|]. destruct (N.ltb_spec (num_bits p + 1) (num_bits n)) as [B|B]; [lia|]. reflexivity.
Qed.

Section Api.
Variable malloc : nat -> heap -> option nat.
Variable solve : N -> N -> option N.
Variable unpack : asn1_val -> option attr_spec.
Hypothesis HA : allocator malloc.
Hypothesis HF : never_fails malloc.

(** The cells of a key freed. *)
Lemma evp_free_ok : forall r y F h n t, Permutation h ((r, OTemp) :: foot_k y ++ F) -> heap_ok h ->
  exists h' n', h_evp_free (r, evp_of t (Some y)) (h, n) = Ret (tt, (h', n')) /\ Permutation h' F.
Proof.
  intros r y F h n t P ND. assert (wpu False (h_evp_free (r, evp_of t (Some y))) (fun _ Q => Permutation Q []) ((r, OTemp) :: foot_k y)) as W.
  { unfold h_evp_free. cbn [fst snd]. apply wp_bind. eapply wp_perm; [apply Permutation_cons_append|].
    apply (pkey_free_wp _ t (Some y)). wps HA. apply Permutation_refl. }
  destruct (W h n F P ND) as [E|[[[] E]|(a & h' & n' & Q & E & HQ & P' & ND')]]; [destruct (evp_free_ends _ _ E)|].
  exists h', n'. destruct a. split; [exact E|]. eapply perm_trans; [exact P'|]. exact (Permutation_app_tail F HQ).
Qed.

(** Making the key. *)
Lemma read_back : forall y F h n, Permutation h (foot_k y ++ F) -> heap_ok h -> read_key (y_ptr y) (h, n) = Ret (val_k y, (h, n)).
Proof.
  intros [k e v s] F h n P ND. unfold foot_k in P. cbn [y_ptr y_ec y_val y_sbox] in P.
  assert (forall c, In c ((k, OKey (Ptr (Some e)) (Ptr (option_map fst s))) :: (e, OEc v) :: opt_cell OSbox s) -> live h (fst c) = Some (snd c)) as L.
  { intros [a o] Hc. apply live_in; [exact ND|]. eapply Permutation_in; [apply Permutation_sym; exact P|]. apply in_or_app. left. exact Hc. }
  assert (live h k = Some (OKey (Ptr (Some e)) (Ptr (option_map fst s)))) as L1 by (apply (L (_, _)); left; reflexivity).
  assert (live h e = Some (OEc v)) as L2 by (apply (L (_, _)); right; left; reflexivity).
  cbn [y_ptr]. unfold read_key, get_key, get_ec, bindM, get. rewrite L1. cbn. rewrite L2. destruct s as [[sp sv]|]; cbn; [|reflexivity].
  assert (live h sp = Some (OSbox sv)) as L3 by (apply (L (_, _)); right; right; left; reflexivity).
  unfold get_sbox, bindM, get. rewrite L3. reflexivity.
Qed.
Lemma number_of : forall ka s, octets ka -> hd_error (strings (at_vals ka)) = Some s -> getPrivateKeyNum ka = Some (reversed_number s).
Proof. intros ka s O E. destruct (Proof_Keylib.private_num_bits ka s E O) as [H _]. exact H. Qed.
Lemma no_number : forall ka, strings (at_vals ka) = [] -> getPrivateKeyNum ka = None.
Proof. exact Proof_Keylib.getPrivateKeyNum_none. Qed.

Lemma iit_key : forall ca ka h n s sp g, heap_ok h -> octets ka -> hd_error (strings (at_vals ka)) = Some s ->
  hd_error (curve_specs unpack ca) = Some sp -> plain_field (cu_field (as_spec sp)) -> described solve (as_spec sp) g ->
  exists r k h' n' Q, h_makePKey malloc solve unpack ca ka (h, n) = Ret (Some (r, (1158%Z, Some k)), (h', n')) /\
    read_key k (h', n') = Ret (DKEY (ECKEY (Some (Binary g)) (Some (reversed_number s)) (Some Q)) None, (h', n')) /\ key_pair g (reversed_number s) Q /\
    exists h'' n'', h_evp_free (r, (1158%Z, Some k)) (h', n') = Ret (tt, (h'', n'')) /\ Permutation h'' h.
Proof.
  intros ca ka h n s sp g ND O Es Ep Pf D. destruct (plain_poly _ Pf) as (p & Mp & Pw). pose proof (proj2 (iit_group_described solve _ _ g Mp Pw) D) as Eg.
  pose proof (number_of _ _ O Es) as En.
  assert (wpu False (h_makePKey malloc solve unpack ca ka)
    (fun a H => exists r y, a = Some (r, evp_of NID_dstu4145le (Some y)) /\ Permutation H ((r, OTemp) :: foot_k y ++ []) /\
       val_k y = DKEY (ECKEY (Some (Binary g)) (Some (reversed_number s)) (Some (pneg (pmul (g_curve g) (reversed_number s) (g_gen g))))) None) []) as W.
  { apply (makePKey_wp False malloc solve unpack HA HF). rewrite Ep, Mp, Eg, En. intros r y Ev H P. exists r, y. auto. }
  destruct (W h n h (Permutation_refl _) ND) as [E|[[[] E]|(a & h' & n' & Q & E & (r & y & -> & P1 & Ev) & P' & ND')]]; [destruct (makePKey_ends _ _ _ _ _ _ E)|].
  assert (Permutation h' ((r, OTemp) :: foot_k y ++ h)) as P2.
  { eapply perm_trans; [exact P'|]. eapply perm_trans; [exact (Permutation_app_tail h P1)|]. rewrite app_nil_r. apply Permutation_refl. }
  exists r, (y_ptr y), h', n', (pneg (pmul (g_curve g) (reversed_number s) (g_gen g))). split; [exact E|]. split.
  - rewrite <- Ev. apply (read_back y ((r, OTemp) :: h)); [|exact ND']. eapply perm_trans; [exact P2|]. apply perm_mid.
  - split; [reflexivity|]. exact (evp_free_ok r y h h' n' 1158%Z P2 ND').
Qed.
Lemma iit_refused : forall ca ka h n, heap_ok h -> octets ka ->
  (forall sp, hd_error (curve_specs unpack ca) = Some sp -> plain_field (cu_field (as_spec sp)) /\ forall g, ~ described solve (as_spec sp) g) ->
  exists h' n', h_makePKey malloc solve unpack ca ka (h, n) = Ret (None, (h', n')) /\ Permutation h' h.
Proof.
  intros ca ka h n ND O Hs.
  assert (wpu False (h_makePKey malloc solve unpack ca ka) (fun a H => a = None /\ H = []) []) as W.
  { apply (makePKey_wp False malloc solve unpack HA HF). destruct (hd_error (curve_specs unpack ca)) as [sp|]; [|auto].
    destruct (Hs sp eq_refl) as [Pf D]. destruct (plain_poly _ Pf) as (p & Mp & Pw). rewrite Mp.
    destruct (iit_group solve (as_spec sp) p) as [g|] eqn:Eg; [|auto]. destruct (D g). exact (proj1 (iit_group_described solve _ _ g Mp Pw) Eg). }
  destruct (W h n h (Permutation_refl _) ND) as [E|[[[] E]|(a & h' & n' & Q & E & (-> & ->) & P' & ND')]]; [destruct (makePKey_ends _ _ _ _ _ _ E)|].
  exists h', n'. auto.
Qed.
Lemma iit_leak : forall ca ka h n sp g, heap_ok h -> strings (at_vals ka) = [] ->
  hd_error (curve_specs unpack ca) = Some sp -> plain_field (cu_field (as_spec sp)) -> described solve (as_spec sp) g ->
  exists a h' n', h_makePKey malloc solve unpack ca ka (h, n) = Ret (None, (h', n')) /\ Permutation h' ((a, OGroup (Binary g)) :: h).
Proof.
  intros ca ka h n sp g ND Es Ep Pf D. destruct (plain_poly _ Pf) as (p & Mp & Pw). pose proof (proj2 (iit_group_described solve _ _ g Mp Pw) D) as Eg.
  assert (wpu False (h_makePKey malloc solve unpack ca ka) (fun a H => a = None /\ exists q, Permutation H [(q, OGroup (Binary g))]) []) as W.
  { apply (makePKey_wp False malloc solve unpack HA HF). rewrite Ep, Mp, Eg, (no_number _ Es). intros q H P. eauto. }
  destruct (W h n h (Permutation_refl _) ND) as [E|[[[] E]|(a & h' & n' & Q & E & (-> & q & P1) & P' & ND')]]; [destruct (makePKey_ends _ _ _ _ _ _ E)|].
  exists q, h', n'. split; [exact E|]. eapply perm_trans; [exact P'|]. exact (Permutation_app_tail h P1).
Qed.
Lemma iit_crash : forall ca ka h n sp, heap_ok h -> hd_error (curve_specs unpack ca) = Some sp -> makePoly (cu_field (as_spec sp)) = None ->
  h_makePKey malloc solve unpack ca ka (h, n) = Undef.
Proof.
  intros ca ka h n sp ND Ep Mp.
  assert (wpu True (h_makePKey malloc solve unpack ca ka) (fun a H => False) []) as W.
  { apply (makePKey_wp True malloc solve unpack HA HF). rewrite Ep, Mp. exact I. }
  destruct (W h n h (Permutation_refl _) ND) as [E|[[_ E]|(a & h' & n' & Q & E & [] & _)]]; [destruct (makePKey_ends _ _ _ _ _ _ E)|exact E].
Qed.
End Api.
Lemma iit_no_memory : forall malloc solve unpack ca ka h n, malloc n h = None -> h_makePKey malloc solve unpack ca ka (h, n) = Undef.
Proof. intros malloc solve unpack ca ka h n E. unfold h_makePKey, bindM, new. rewrite E. reflexivity. Qed.

Lemma iit_no_buffer : forall malloc solve unpack ca ka h n p b s, malloc n h = Some p -> malloc (S n) ((p, OTemp) :: h) = None -> hd_error (strings (at_vals ka)) = Some (b :: s) -> h_makePKey malloc solve unpack ca ka (h, n) = Undef.
Proof.
  intros malloc solve unpack ca ka h n p b s E1 E2 H. assert (F : first_string (at_vals ka) = Some (b :: s)).
  { revert H. induction (at_vals ka) as [|[x|x|x] t IH]; cbn; intros H; [discriminate|injection H as ->; reflexivity|injection H as ->; reflexivity|exact (IH H)]. }
  unfold h_makePKey, h_getPrivateKeyNum, bindM, new, deref, ret, undef. rewrite E1, F, E2. reflexivity.
Qed.

(** The same structure as parameters of a key. *)
Lemma same_group : forall solve c g, good_field (cu_field c) -> (cu_a c = 0 \/ cu_a c = 1)%Z -> cu_b c <> [] -> cu_bp c <> [] ->
  (described solve c g <-> group_from_asn1 solve c false = Some g) /\
  (described solve c g <-> group_from_asn1 solve (CUSTOM (cu_field c) (cu_a c) (rev (cu_b c)) (cu_n c) (rev (cu_bp c))) true = Some g).
Proof.
  intros solve c g Gf Ha Hb Hbp. destruct (Proof_Keylib.poly_both _ Gf) as (p & E1 & E2 & Pw).
  assert (group_from_asn1 solve c false = iit_group solve c p) as F1.
  { unfold group_from_asn1, iit_group. rewrite E2. cbn [in_order].
    assert (negb (cu_a c =? 1)%Z && negb (cu_a c =? 0)%Z = false) as -> by (destruct Ha as [-> | ->]; reflexivity).
    assert (Z.to_N (cu_a c) = Z.abs_N (cu_a c)) as -> by (destruct Ha as [-> | ->]; reflexivity). reflexivity. }
  assert (group_from_asn1 solve (CUSTOM (cu_field c) (cu_a c) (rev (cu_b c)) (cu_n c) (rev (cu_bp c))) true = group_from_asn1 solve c false) as F2.
  { unfold group_from_asn1. cbn [cu_field cu_a cu_b cu_n cu_bp in_order].
    assert (forall l : list N, l <> [] -> match rev l with [] => None | _ :: _ => Some (rev (rev l)) end = Some l) as R.
    { intros l Hl. rewrite rev_involutive. destruct (rev l) eqn:El; [|reflexivity]. destruct Hl. rewrite <- (rev_involutive l), El. reflexivity. }
    rewrite (R _ Hb), (R _ Hbp). reflexivity. }
  rewrite F2, F1. pose proof (iit_group_described solve c p g E1 Pw) as I0. split; symmetry; exact I0.
Qed.

(** No undefined behaviour otherwise. *)
Lemma iit_safe : forall malloc solve unpack, allocator malloc -> never_fails malloc -> forall ca ka h n, heap_ok h -> octets ka ->
  (forall sp, hd_error (curve_specs unpack ca) = Some sp -> plain_field (cu_field (as_spec sp))) ->
  exists r m, h_makePKey malloc solve unpack ca ka (h, n) = Ret (r, m).
Proof.
  intros malloc solve unpack HA HF ca ka h n ND O Hs.
  assert (wpu False (h_makePKey malloc solve unpack ca ka) (fun a H => True) []) as W.
  { apply (makePKey_wp False malloc solve unpack HA HF). destruct (hd_error (curve_specs unpack ca)) as [sp|]; [|auto].
    destruct (plain_poly _ (Hs sp eq_refl)) as (p & Mp & Pw). rewrite Mp. destruct (iit_group solve (as_spec sp) p) as [g|]; [|auto].
    destruct (getPrivateKeyNum ka); auto. }
  destruct (W h n h (Permutation_refl _) ND) as [E|[[[] E]|(a & h' & n' & Q & E & _)]]; [destruct (makePKey_ends _ _ _ _ _ _ E)|]. eauto.
Qed.
Lemma iit_negative : forall malloc solve unpack, allocator malloc -> never_fails malloc -> forall ca ka h n sp, heap_ok h -> hd_error (curve_specs unpack ca) = Some sp ->
  int_field (cu_field (as_spec sp)) -> ~ In (-1)%Z (Spec_Keylib.exponents (cu_field (as_spec sp))) -> Exists (fun x => x < 0)%Z (Spec_Keylib.exponents (cu_field (as_spec sp))) ->
  h_makePKey malloc solve unpack ca ka (h, n) = Undef.
Proof.
  intros malloc solve unpack HA HF ca ka h n sp ND Ep Hi Hn He. eapply iit_crash; eauto. apply (Proof_Keylib.makePoly_refuses _ Hi Hn). exact He.
Qed.
Lemma iit_no_sbox : forall malloc solve unpack, allocator malloc -> never_fails malloc -> forall ca ka h n s sp g, heap_ok h -> octets ka ->
  hd_error (strings (at_vals ka)) = Some s -> hd_error (curve_specs unpack ca) = Some sp -> plain_field (cu_field (as_spec sp)) -> described solve (as_spec sp) g ->
  exists r k m v, h_makePKey malloc solve unpack ca ka (h, n) = Ret (Some (r, (1158%Z, Some k)), m) /\ read_key k m = Ret (v, m) /\ dk_sbox v = None.
Proof.
  intros malloc solve unpack HA HF ca ka h n s sp g ND O Es Ep Pf D.
  destruct (iit_key malloc solve unpack HA HF ca ka h n s sp g ND O Es Ep Pf D) as (r & k & h' & n' & Q & E & R & _). exists r, k, (h', n'), (DKEY (ECKEY (Some (Binary g)) (Some (reversed_number s)) (Some Q)) None). auto.
Qed.
