(** The octets of encoded keys. *)
From Coq Require Import ZArith Lia Sorted.
From Verif Require Proof_Keylib.
From Verif Require Import Base Lib Model_Params Model_Gf2m Model_Compress Model_Ec Model_Curves Model_Sign Model_Asn1 Model_Pmeth Model_Utils Model_Key Model_Ameth
  Spec_Gf2m Spec_Compress Spec_Curves Spec_Asn1 Spec_Keylib Spec_Sign Spec_Pmeth Spec_Key Spec_Iit Spec_Wire
  Proof_Params Proof_Gf2 Proof_Field Proof_Compress Proof_Compress2 Proof_Ec Proof_Ec2 Proof_Curves Proof_Curves2 Proof_Curves3 Proof_Asn1 Proof_Pmeth Proof_Key Proof_Key2 Proof_Iit.

(** Exponents in order. *)
Lemma pexp_sorted q : forall i, StronglySorted N.lt (pexponents q i).
Proof.
  induction q as [q IH|q IH|]; intros i; cbn [pexponents]; [|apply IH|repeat constructor].
  constructor; [apply IH|]. eapply Forall_impl; [|apply (pexp_ge q (i + 1))]. cbn. intros. lia.
Qed.
Lemma middle_good p mid : 1 < p -> N.testbit p 0 = true -> weight p = 3 \/ weight p = 5 -> middle_of (poly2arr p 6) = Ok mid ->
  match mid with Trinomial k => 0 < k < Z.of_N (degree p) | Pentanomial k j l => 0 < k < j /\ j < l < Z.of_N (degree p) end%Z.
Proof.
  intros H1 B W M. pose proof (exponents_length p) as L. destruct (exponents_shape p H1 B) as [l [E [P Dp]]].
  assert (StronglySorted N.lt (rev (Model_Key.exponents p))) as So by (destruct p as [|q]; [constructor|]; cbn [Model_Key.exponents]; rewrite rev_involutive; apply pexp_sorted).
  rewrite E in So, L. unfold poly2arr in M. rewrite E in M. cbn [length] in L. rewrite app_length in L. cbn [length] in L.
  destruct l as [|a [|b [|c [|]]]]; cbn [length] in L; try lia; cbn [app rev] in So.
  - injection M as <-. inversion P as [|? ? P1 _]; subst. inversion So as [|? ? So1 F1]; subst. inversion So1 as [|? ? So2 F2]; subst. inversion F2; subst. lia.
  - inversion P as [|? ? P1 P']; subst. inversion P' as [|? ? P2 P'']; subst. inversion P'' as [|? ? P3 _]; subst.
    unfold middle_of, elt in M. cbn [map app firstn nth bind] in M. replace (Z.of_N c =? -1)%Z with false in M by (symmetry; apply Z.eqb_neq; lia). injection M as <-.
    inversion So as [|? ? So1 F1]; subst. inversion So1 as [|? ? So2 F2]; subst. inversion So2 as [|? ? So3 F3]; subst. inversion So3 as [|? ? So4 F4]; subst.
    inversion F2; subst. inversion F3; subst. inversion F4; subst. lia.
Qed.
Lemma ordered_good m mid : (m < 2 ^ 31)%Z -> match mid with Trinomial k => 0 < k < m | Pentanomial k j l => 0 < k < j /\ j < l < m end%Z -> good_field (BF m mid).
Proof. unfold good_field, good_exponent. cbn [bf_m bf_poly]. destruct mid; lia. Qed.

Lemma big_endian_le t s : big_endian t (if is_le t then rev s else s) = s.
Proof. unfold big_endian, is_le, NID_dstu4145le. destruct (t =? 1158)%Z; [apply rev_involutive|reflexivity]. Qed.
Lemma bytesn_le t n s : bytesn n s -> bytesn n (if is_le t then rev s else s).
Proof. intros [B L]. destruct (is_le t); [|split; assumption]. split; [apply bytes_rev, B|rewrite rev_length; exact L]. Qed.
Lemma compress_stands c x y len out : dstu_curve c -> on_curve c x y -> compressible c x \/ x = 0 -> compress c (Some (x, y)) len = Some out -> stands_for c out x y.
Proof.
  intros Hc Hon Hx H. assert (S := half_trace_solver (c_p c) (proj1 Hc) (proj1 (proj2 Hc))).
  apply (expand_iff_all c solve_quad out x y Hc S). exact (expand_compress c solve_quad x y len out Hc S Hon Hx H).
Qed.
Lemma compress_string t c x y len out : dstu_curve c -> on_curve c x y -> compressible c x \/ x = 0 -> compress c (Some (x, y)) len = Some out ->
  point_string t c (if is_le t then rev out else out) (Some (x, y)).
Proof.
  intros Hc Hon Hx H. split; [apply bytesn_le; eapply compress_bytes, H|]. exists x, y. split; [reflexivity|]. rewrite big_endian_le. eapply compress_stands; eassumption.
Qed.
Lemma custom_wire t g c : well_formed g -> api_group g -> custom_from_group g (is_le t) = Ok c -> custom_says t c g.
Proof.
  intros W AG H. pose proof (get_facts g W AG) as [Hp Hb0 Hd Ha Ha1 Hb Hbz]. destruct AG as [Wt [On [Os D]]].
  destruct (middle_back _ Hp Hb0 Wt D) as [mid [M [E0 [MO PS]]]]. pose proof (middle_good _ _ Hp Hb0 Wt M) as MG. unfold custom_from_group in H.
  destruct (N.eqb_spec (g_order g) 0); [lia|]. destruct (N.eqb_spec (c_p (g_curve g)) 0); [lia|]. rewrite E0, M in H. cbn [bind] in H. rewrite field_size_Z in H.
  destruct W as [DC [_ [[x [y [Eg [OC CO]]]] _]]]. unfold custom_says. cbv zeta.
  set (cv := g_curve g) in *. destruct cv as [p a b] eqn:Ec. cbn [c_p c_a c_b] in *.
  rewrite (bn_encode_elem p ltac:(exact Hp)) in H by exact Hb. set (bb := be_bytes _ b) in H. destruct (num_bytes b =? 0); [discriminate|].
  destruct (compress _ (g_gen g) _) as [bp|] eqn:CP; [|discriminate]. injection H as <-. cbn [cu_field cu_a cu_b cu_n cu_bp bf_m bf_poly].
  split; [reflexivity|]. split; [exact MG|]. split.
  { destruct (Proof_Keylib.poly_both (BF (Z.of_N (degree p)) mid)) as (p' & _ & E2 & Pw); [apply ordered_good; [lia|exact MG]|]. rewrite PS in E2. injection E2 as <-. exact Pw. }
  split; [reflexivity|]. split; [apply bytesn_le; split; [apply be_bytes_bytes|apply be_bytes_length]|]. split.
  { rewrite big_endian_le. unfold bb. apply be_val_be_bytes. rewrite N2Nat.id. apply (elem_fits p ltac:(exact Hp)), Hb. }
  split; [reflexivity|]. rewrite Eg in CP |- *. eapply compress_string; [exact DC|exact OC|left; exact CO|exact CP].
Qed.
Lemma standard_std i : i < 10 -> standard_group i = Some (std (N.to_nat i)).
Proof.
  intros H. unfold standard_group. rewrite from_nid. replace ((1160 <=? 1160 + Z.of_N i) && (1160 + Z.of_N i <=? 1169))%Z with true by (symmetry; apply andb_true_iff; split; apply Z.leb_le; lia).
  f_equal. f_equal. lia.
Qed.
Lemma not_standard g : curve_nid_from_group g = 0%Z -> forall i, standard_group i <> Some g.
Proof.
  intros E i H. destruct (N.lt_ge_cases i 10) as [L|L].
  - rewrite standard_std in H by exact L. injection H as <-. rewrite nid_std in E by lia. lia.
  - unfold standard_group in H. rewrite from_nid in H. replace ((1160 <=? 1160 + Z.of_N i) && (1160 + Z.of_N i <=? 1169))%Z with false in H; [discriminate|].
    symmetry. apply andb_false_iff. right. apply Z.leb_gt. lia.
Qed.
Lemma stored_as sb : stored sb = if list_eq_dec N.eq_dec (effective sb) default_sbox then None else Some (effective sb).
Proof.
  destruct sb as [s|]; cbn [stored effective].
  - destruct (is_default_sbox s) eqn:E; destruct (list_eq_dec N.eq_dec s default_sbox) as [e|n]; try reflexivity.
    + apply is_default_ok in E. contradiction.
    + apply is_default_ok in e. congruence.
  - destruct (list_eq_dec N.eq_dec default_sbox default_sbox); [reflexivity|contradiction].
Qed.
Lemma params_wire t g d Q sb der : well_formed g -> api_group g -> param_encode (PKEY t (Some (DKEY (ECKEY (Some (Binary g)) d Q) sb))) = Ok der ->
  exists p, der_params p der /\ params_say t p g sb.
Proof.
  intros W AG H. unfold param_encode in H. cbn [pk_key pk_type] in H. destruct (asn1_from_key _ _) as [| |prm] eqn:E; try discriminate. cbn [bind] in H. injection H as <-.
  exists prm. split; [apply enc_params_der|]. unfold asn1_from_key in E. cbn [dk_ec ek_group dk_sbox] in E. fold (stored sb) in E. cbv zeta in E. unfold params_say. rewrite <- stored_as.
  destruct (Z.eqb_spec (curve_nid_from_group g) 0) as [N0|N0].
  - destruct (custom_from_group g _) as [| |c] eqn:C; try discriminate. cbn [bind] in E. injection E as <-. cbn [ap_curve ap_sbox]. split; [|reflexivity].
    split; [apply not_standard, N0|]. apply custom_wire; assumption.
  - pose proof (nid_range g N0) as R. pose proof (recognised g N0) as G. unfold curve_nid2obj in E.
    replace ((1160 <=? curve_nid_from_group g) && (curve_nid_from_group g <=? 1169))%Z with true in E by (symmetry; apply andb_true_iff; split; apply Z.leb_le; lia).
    injection E as <-. cbn [ap_curve ap_sbox]. split; [|reflexivity]. exists (Z.to_N (curve_nid_from_group g - 1160)). split; [lia|]. split; [reflexivity|].
    unfold standard_group. rewrite Z2N.id by lia. replace (1160 + (curve_nid_from_group g - 1160))%Z with (curve_nid_from_group g) by lia. exact G.
Qed.
Lemma top_byte d : d <> 0 -> last (rev (be_bytes (N.to_nat (num_bytes d)) d)) 0 <> 0.
Proof.
  intros H. assert (forall l : list N, last (rev l) 0 = hd 0 l) as -> by (intros [|a l]; [reflexivity|]; cbn [rev hd]; apply last_last).
  assert (E : be_val (be_bytes (N.to_nat (num_bytes d)) d) = d) by (apply be_val_be_bytes; rewrite N2Nat.id; apply nbytes_gt).
  pose proof (nbytes_pos d H). rewrite le_val_hd_rev, E, be_bytes_length.
  - intros E0. apply N.div_small_iff in E0; [|apply N.pow_nonzero; lia]. apply nbytes_le in E0. lia.
  - apply be_bytes_bytes.
  - intros E0. apply (f_equal (@length N)) in E0. rewrite be_bytes_length in E0. cbn in E0. lia.
Qed.
Lemma priv_wire t g d Q sb p8 : well_formed g -> api_group g -> priv_encode (key_of t g (Some d) Q sb) = Ok p8 ->
  al_nid (ki_alg p8) = t /\ (exists der p, al_params (ki_alg p8) = Some der /\ der_params p der /\ params_say t p g sb) /\
  bytes (ki_key p8) /\ be_val (rev (ki_key p8)) = d /\ last (ki_key p8) 0 <> 0.
Proof.
  intros W AG H. unfold priv_encode, key_of in H. cbn [pk_type pk_key dk_ec ek_priv] in H. destruct (is_dstu t) eqn:T; [|discriminate]. cbn [negb] in H.
  destruct (param_encode _) as [| |der] eqn:E; try discriminate. cbn [bind] in H. destruct (N.eqb_spec d 0) as [|D]; [discriminate|]. injection H as <-. cbn [ki_alg al_nid al_params ki_key].
  split; [reflexivity|]. destruct (params_wire _ _ _ _ _ _ W AG E) as (p & P1 & P2). split; [exists der, p; auto|]. rewrite rev_involutive.
  split; [apply bytes_rev, be_bytes_bytes|]. split; [apply be_val_be_bytes; rewrite N2Nat.id; apply nbytes_gt|]. apply top_byte, D.
Qed.
Lemma pub_wire t g d k x y sb pub : well_formed g -> api_group g -> pmul (g_curve g) k (g_gen g) = Some (x, y) -> pub_encode (key_of t g d (Some (x, y)) sb) = Ok pub ->
  al_nid (ki_alg pub) = t /\ (exists der p, al_params (ki_alg pub) = Some der /\ der_params p der /\ params_say t p g sb) /\
  exists s, der_octets s (ki_key pub) /\ point_string t (g_curve g) s (Some (x, y)).
Proof.
  intros W AG K H. destruct (multiples_compressible g k x y W K) as [OC CO]. unfold pub_encode, key_of in H. cbn [pk_type pk_key dk_ec ek_group ek_pub] in H. destruct (is_dstu t) eqn:T; [|discriminate]. cbn [negb] in H.
  destruct (param_encode _) as [| |der] eqn:E; try discriminate. cbn [bind] in H. cbv zeta in H. destruct (field_size _ =? 0); [discriminate|]. destruct (compress _ _ _) as [out|] eqn:C; [|discriminate]. injection H as <-.
  cbn [ki_alg al_nid al_params ki_key]. split; [reflexivity|]. destruct (params_wire _ _ _ _ _ _ W AG E) as (p & P1 & P2). split; [exists der, p; auto|].
  exists (if is_le t then rev out else out). split; [apply enc_octets_der|]. eapply compress_string; [exact (proj1 W)|exact OC|left; exact CO|exact C].
Qed.

(** What says the key is read as the key. *)
Lemma string_stands t c s P : point_string t c s P -> dstu_curve c -> forall solve, good_solver (c_p c) solve -> expand solve (big_endian t s) c = Some P.
Proof.
  intros [[B L] (x & y & -> & S)] Hc solve Hs. apply (expand_iff_all c solve _ x y Hc Hs). split; [|exact S].
  unfold big_endian. destruct (t =? 1158)%Z; rewrite ?rev_length, L; lia.
Qed.
Lemma big_in_order t s : s <> [] -> in_order (is_le t) s = Some (big_endian t s).
Proof. intros H. unfold in_order, big_endian, is_le, NID_dstu4145le. destruct (t =? 1158)%Z; [|reflexivity]. destruct s; [contradiction|reflexivity]. Qed.
Lemma custom_read t c g solve : well_formed g -> api_group g -> good_solver (c_p (g_curve g)) solve -> custom_says t c g -> group_from_asn1 solve c (is_le t) = Some (cofactor_one g).
Proof.
  intros W AG S (Em & Mo & Pw & Ea & Bb & Eb & En & Bp). pose proof (get_facts g W AG) as [Hp Hb0 Hd Ha Ha1 Hb Hbz]. destruct AG as [Wt [On [Os D]]].
  pose proof (string_stands _ _ _ _ Bp (proj1 W) solve S) as X. destruct Bp as [Bp _]. pose proof (field_size_pos (g_curve g) ltac:(lia)) as FP.
  assert (NN : forall s, bytesn (N.to_nat (field_size (g_curve g))) s -> s <> []) by (intros s [_ L] ->; cbn [length] in L; lia).
  destruct c as [[m mid] a b n bp]. cbn [cu_field cu_a cu_b cu_n cu_bp bf_m bf_poly] in *.
  assert (GF : good_field (BF m mid)) by (apply ordered_good; [lia|]; rewrite Em; exact Mo).
  destruct (Proof_Keylib.poly_both _ GF) as (p & _ & E2 & Pw').
  assert (p = c_p (g_curve g)) as Ep. { apply N.bits_inj. intros i. specialize (Pw i). specialize (Pw' i). destruct (N.testbit p i), (N.testbit (c_p (g_curve g)) i); try reflexivity; [symmetry; apply Pw, Pw'|apply Pw', Pw]; reflexivity. }
  unfold group_from_asn1. cbn [cu_field cu_a cu_b cu_n cu_bp]. rewrite E2, Ep, Ea. replace (negb (Z.of_N _ =? 1)%Z && negb (Z.of_N _ =? 0)%Z) with false by (destruct Ha1 as [-> | ->]; reflexivity).
  rewrite big_in_order by (apply NN, Bb). rewrite N2Z.id, Eb. unfold new_curve. replace ((weight _ =? 3) || (weight _ =? 5)) with true by (destruct Wt as [-> | ->]; reflexivity). rewrite !elem_pmod by assumption.
  rewrite big_in_order by (apply NN, Bp). destruct g as [cv G o cf]. cbn [g_curve g_gen g_order] in *. destruct cv as [p0 a0 b0]. cbn [c_p c_a c_b] in *. rewrite X.
  rewrite En. destruct (Z.ltb_spec (Z.of_N o) 0); [lia|]. rewrite N2Z.id. unfold set_generator. cbn [c_p]. destruct (N.eqb_spec o 0); [lia|].
  unfold num_bits. destruct (N.ltb_spec (N.size p0 + 1) (N.size o)); [lia|]. reflexivity.
Qed.
Lemma oid_nid i : i < 10 -> curve_obj2nid (standard_oid i) = (1160 + Z.of_N i)%Z.
Proof.
  intros H. assert (i = 0 \/ i = 1 \/ i = 2 \/ i = 3 \/ i = 4 \/ i = 5 \/ i = 6 \/ i = 7 \/ i = 8 \/ i = 9) as C by lia.
  repeat (destruct C as [-> |C]; [vm_compute; reflexivity|]). subst i. vm_compute. reflexivity.
Qed.
Lemma params_read d2i solve t p g sb der : reads_params d2i -> well_formed g -> api_group g -> good_solver (c_p (g_curve g)) solve -> sbox_ok sb -> params_ok p ->
  (g_cofactor g = 1 \/ exists i, standard_group i = Some g) -> der_params p der -> params_say t p g sb ->
  exists sb', effective sb' = effective sb /\ param_decode d2i solve t der = Some (DKEY (ECKEY (Some (Binary g)) None None) sb').
Proof.
  intros R W AG S SB PO C D [P1 P2]. unfold param_decode. rewrite <- (app_nil_r der), (R p der [] PO D). unfold key_from_asn1. rewrite P2.
  assert (match (if list_eq_dec N.eq_dec (effective sb) default_sbox then None else Some (effective sb)) with Some s => if negb (length s =? 64)%nat then None else Some (if is_default_sbox s then None else Some s) | None => Some None end
          = Some (stored sb)) as ->.
  { rewrite stored_as. destruct (list_eq_dec N.eq_dec (effective sb) default_sbox) as [e|n]; [reflexivity|]. assert (length (effective sb) = 64%nat) as -> by (destruct sb as [s|]; [apply SB|contradiction]). cbn [Nat.eqb negb].
    destruct (is_default_sbox (effective sb)) eqn:X; [|reflexivity]. apply is_default_ok in X. contradiction. }
  exists (stored sb). split; [apply stored_effective|]. destruct (ap_curve p) as [o|c].
  - destruct P1 as (i & I & -> & G). rewrite oid_nid by exact I. unfold standard_group in G. rewrite G. reflexivity.
  - destruct P1 as [NS CS]. rewrite (custom_read t c g solve W AG S CS). destruct C as [C|[i C]]; [|destruct (NS i C)].
    destruct g as [cv G o cf]. cbn in C. subst cf. reflexivity.
Qed.
Lemma priv_read d2i solve t p g d Q sb der s : reads_params d2i -> key_type t -> well_formed g -> api_group g -> good_solver (c_p (g_curve g)) solve -> sbox_ok sb -> params_ok p ->
  (g_cofactor g = 1 \/ exists i, standard_group i = Some g) -> der_params p der -> params_say t p g sb -> s <> [] -> be_val (rev s) = d -> key_pair g d Q ->
  exists sb', effective sb' = effective sb /\ priv_decode d2i solve (KEYINFO (ALGOR t (Some der)) s) = Some (key_of t g (Some d) Q sb').
Proof.
  intros R T W AG S SB PO C D P N0 V K. apply is_dstu_ok in T. destruct (params_read d2i solve t p g sb der R W AG S SB PO C D P) as (sb' & E & X). exists sb'. split; [exact E|].
  unfold priv_decode. cbn [ki_alg al_nid al_params ki_key]. rewrite T, X. cbn [negb]. destruct s as [|b s]; [contradiction|]. unfold add_public_key. cbn [dk_ec ek_group ek_priv ek_pub dk_sbox].
  unfold key_of. rewrite V, K. reflexivity.
Qed.
Lemma pub_read d2i d2o solve t p g x y sb der s w : reads_params d2i -> reads_octets d2o -> key_type t -> well_formed g -> api_group g -> good_solver (c_p (g_curve g)) solve -> sbox_ok sb -> params_ok p ->
  (g_cofactor g = 1 \/ exists i, standard_group i = Some g) -> der_params p der -> params_say t p g sb -> der_octets s w -> point_string t (g_curve g) s (Some (x, y)) ->
  exists sb', effective sb' = effective sb /\ pub_decode d2i d2o solve (KEYINFO (ALGOR t (Some der)) w) = Some (key_of t g None (Some (x, y)) sb').
Proof.
  intros R RO T W AG S SB PO C D P DO PS. apply is_dstu_ok in T. destruct (params_read d2i solve t p g sb der R W AG S SB PO C D P) as (sb' & E & X). exists sb'. split; [exact E|].
  pose proof (string_stands _ _ _ _ PS (proj1 W) solve S) as Y. destruct PS as [[_ L] _]. pose proof (get_facts g W AG) as F. pose proof (field_size_pos (g_curve g) ltac:(destruct F; lia)) as FP.
  assert (FS : field_size (g_curve g) < 2 ^ 31) by (destruct AG as [_ [_ [_ Dg]]]; unfold field_size; apply N.div_lt_upper_bound; lia).
  unfold pub_decode. cbn [ki_alg al_nid al_params ki_key]. rewrite T, X. cbn [negb dk_ec ek_group ek_priv dk_sbox]. rewrite <- (app_nil_r w), (RO s w []) by (assumption || lia).
  rewrite big_in_order by (intros ->; cbn in L; lia). rewrite Y. reflexivity.
Qed.
Lemma copy_rest to from to' : param_copy to from = Some to' -> exists k fk, pk_key to' = Some k /\ pk_key from = Some fk /\ ek_group (dk_ec k) = ek_group (dk_ec fk) /\
  match pk_key to with
  | Some tk => pk_type to' = pk_type to /\ ek_priv (dk_ec k) = ek_priv (dk_ec tk) /\ ek_pub (dk_ec k) = ek_pub (dk_ec tk)
  | None => pk_type to' = pk_type from /\ ek_priv (dk_ec k) = None /\ ek_pub (dk_ec k) = None
  end.
Proof.
  unfold param_copy. destruct (pk_key from) as [fk|]; [|discriminate]. destruct (ek_group (dk_ec fk)) as [g|] eqn:G; [|discriminate].
  destruct (pk_key to) as [tk|]; intros [= <-]; cbn; eexists; exists fk; (split; [reflexivity|]); rewrite G; repeat split.
Qed.
