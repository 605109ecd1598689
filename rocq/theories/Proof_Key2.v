(** Comparison and copying of parameters; what decoding accepts. *)
From Coq Require Import Lia ZArith.
From Verif Require Import Base Lib Model_Params Proof_Params Model_Gf2m Model_Compress Model_Ec Model_Utils Model_Curves Model_Sign Model_Asn1 Model_Pmeth Model_Key Model_Ameth
  Spec_Gf2m Spec_Compress Spec_Curves Spec_Asn1 Spec_Sign Spec_Pmeth Spec_Key Spec_Toy Proof_Gf2 Proof_Field Proof_Asn1 Proof_Compress Proof_Compress2 Proof_Ec Proof_Ec2 Proof_Curves2 Proof_Curves3 Proof_Sign Proof_Pmeth
  Proof_Key Proof_Toy.

(** * Equality of groups *)
Lemma point_eqb_refl P : point_eqb P P = true.
Proof. destruct P as [[x y]|]; [|reflexivity]. cbn. rewrite !N.eqb_refl. reflexivity. Qed.
Lemma group_eqb_refl g : group_eqb g g = true.
Proof. unfold group_eqb. rewrite !N.eqb_refl, point_eqb_refl. reflexivity. Qed.
Lemma group_cmp_refl g : group_cmp (Some g) (Some g) = Ok 0%Z.
Proof. destruct g as [g|n]; cbn; [rewrite group_eqb_refl|rewrite N.eqb_refl]; reflexivity. Qed.
Lemma group_cmp_eq g h : group_cmp (Some (Binary g)) (Some (Binary h)) = Ok 0%Z <-> g = h.
Proof.
  split; [|intros ->; apply group_cmp_refl]. cbn. destruct (group_eqb g h) eqn:E; [|discriminate]. intros _. apply group_eqb_eq, E.
Qed.

(** * Copying *)
Lemma copy_cmp to from to' : param_copy to from = Some to' ->
  (forall key, pk_key from = Some key -> dk_sbox key = None -> forall k, pk_key to = Some k -> dk_sbox k = None) ->
  param_cmp to' from = Ok 1%Z.
Proof.
  intros H S. unfold param_copy in H. destruct (pk_key from) as [fk|] eqn:F; [|discriminate]. destruct (ek_group (dk_ec fk)) as [g|] eqn:G; [|discriminate].
  specialize (S fk eq_refl). destruct (pk_key to) as [tk|] eqn:T; injection H as <-; unfold param_cmp; cbn [pk_key]; rewrite F; cbn [dk_ec ek_group dk_sbox]; rewrite G, group_cmp_refl; cbn [bind Z.eqb].
  - destruct (dk_sbox fk) as [s|]; [destruct (list_eq_dec N.eq_dec s s); [reflexivity|contradiction]|]. rewrite (S eq_refl tk eq_refl). reflexivity.
  - destruct (dk_sbox fk) as [s|]; [destruct (list_eq_dec N.eq_dec s s); [reflexivity|contradiction]|]. reflexivity.
Qed.
Lemma copy_keeps to from key s g tk : pk_key from = Some key -> dk_sbox key = None -> ek_group (dk_ec key) = Some g -> pk_key to = Some tk -> dk_sbox tk = Some s ->
  exists to', param_copy to from = Some to' /\ param_cmp to' from = Ok 0%Z /\ exists k, pk_key to' = Some k /\ ek_group (dk_ec k) = Some g /\ dk_sbox k = Some s.
Proof.
  intros F S G T S'. eexists. split; [unfold param_copy; rewrite F, G, T, S, S'; reflexivity|]. split; [unfold param_cmp; cbn [pk_key]; rewrite F, S; reflexivity|].
  eexists. split; [reflexivity|]. split; reflexivity.
Qed.
Lemma evp_copy_cmp to from to' : evp_copy_parameters to from = Ok to' -> param_cmp to' from = Ok 1%Z.
Proof.
  unfold evp_copy_parameters. cbv zeta. set (to0 := if (pk_type to =? 0)%Z then PKEY (pk_type from) None else to). destruct (negb _); [discriminate|]. unfold evp_cmp_parameters.
  destruct (negb (pk_type to0 =? pk_type from)%Z); [discriminate|]. destruct (is_dstu _); [|discriminate].
  destruct (param_cmp to0 from) as [| |r] eqn:E; try discriminate. cbn [bind]. destruct (Z.eqb_spec r 1) as [->|]; [|discriminate]. intros [= <-]. exact E.
Qed.
Lemma evp_copy_empty t from : key_type (pk_type from) -> t = 0%Z \/ t = pk_type from -> evp_copy_parameters (PKEY t None) from = Error.
Proof.
  intros K T. unfold evp_copy_parameters. cbn [pk_type]. replace (if (t =? 0)%Z then PKEY (pk_type from) None else PKEY t None) with (PKEY (pk_type from) None).
  2:{ destruct T as [-> | ->]; [reflexivity|]. destruct (Z.eqb_spec (pk_type from) 0) as [E|E]; reflexivity. }
  cbn [pk_type]. rewrite Z.eqb_refl. unfold evp_cmp_parameters. cbn [pk_type]. rewrite Z.eqb_refl. cbn [negb]. apply is_dstu_ok in K. rewrite K. unfold param_cmp. cbn [pk_key]. reflexivity.
Qed.
(** A key and what is decoded from its encoding. *)
Lemma decoded_cmp t g d Q d' Q' sb : param_cmp (key_of t g d Q sb) (PKEY t (Some (DKEY (ECKEY (Some (Binary g)) d' Q') (stored sb)))) = Ok (if match sb with Some s => is_default_sbox s | None => false end then 0 else 1)%Z.
Proof.
  unfold param_cmp, key_of. cbn [pk_key dk_sbox dk_ec ek_group]. rewrite group_cmp_refl. cbn [bind Z.eqb]. destruct sb as [s|]; [|reflexivity]. cbn [stored].
  destruct (is_default_sbox s); [reflexivity|]. destruct (list_eq_dec N.eq_dec s s); [reflexivity|contradiction].
Qed.

(** * Comparison *)
Lemma param_cmp_defined a b : complete a -> complete b -> param_cmp a b <> Undefined.
Proof.
  intros A B. unfold param_cmp. destruct (pk_key a) as [x|] eqn:X; [|discriminate]. destruct (pk_key b) as [y|] eqn:Y; [|discriminate].
  destruct (A x X) as [GA _], (B y Y) as [GB _].
  assert (G : bind (group_cmp (ek_group (dk_ec x)) (ek_group (dk_ec y))) (fun r => Ok (if (r =? 0)%Z then 1 else 0)%Z) <> Undefined).
  { destruct (ek_group (dk_ec x)) as [[g|n]|], (ek_group (dk_ec y)) as [[g'|n']|]; try contradiction; discriminate. }
  destruct (dk_sbox x), (dk_sbox y); try discriminate; try exact G. destruct (list_eq_dec _ _ _); [exact G|discriminate].
Qed.
Lemma cmp_defined a b : complete a -> complete b -> evp_cmp a b <> Undefined.
Proof.
  intros A B. unfold evp_cmp. destruct (negb _); [discriminate|]. destruct (is_dstu _); [|discriminate]. pose proof (param_cmp_defined a b A B) as D.
  destruct (param_cmp a b) as [| |r]; [contradiction|discriminate|]. cbn [bind]. destruct (r <=? 0)%Z; [discriminate|].
  unfold pub_cmp. destruct (pk_key a) as [x|] eqn:X; [|discriminate]. destruct (pk_key b) as [y|] eqn:Y; [|discriminate].
  destruct (A x X) as [GA PA], (B y Y) as [GB PB]. destruct (ek_group (dk_ec x)), (ek_pub (dk_ec x)), (ek_pub (dk_ec y)); try contradiction; discriminate.
Qed.
Lemma cmp_correct t g g' d d' Q Q' sb sb' : key_type t ->
  evp_cmp (key_of t g d Q sb) (key_of t g' d' Q' sb') = Ok 1%Z <-> g = g' /\ Q = Q' /\ sb = sb'.
Proof.
  intros T. apply is_dstu_ok in T. unfold evp_cmp, key_of. cbn [pk_type]. rewrite Z.eqb_refl, T. cbn [negb]. unfold param_cmp, pub_cmp. cbn [pk_key dk_ec dk_sbox ek_group ek_pub group_cmp].
  assert (GE : group_eqb g g' = true <-> g = g') by (split; [apply group_eqb_eq|intros ->; apply group_eqb_refl]).
  assert (PE : point_eqb Q Q' = true <-> Q = Q').
  { split; [|intros ->; apply point_eqb_refl]. destruct Q as [[x y]|], Q' as [[x' y']|]; cbn; try discriminate; [|reflexivity]. rewrite andb_true_iff, !N.eqb_eq. intros [-> ->]. reflexivity. }
  destruct (group_eqb g g') eqn:G.
  2:{ split; [|intros [E _]; apply GE in E; discriminate]. destruct sb as [s|], sb' as [s'|]; cbn; try discriminate. destruct (list_eq_dec _ _ _); discriminate. }
  assert (F : bind (Ok 0%Z) (fun r => Ok (if (r =? 0)%Z then 1 else 0)%Z) = Ok 1%Z) by reflexivity. rewrite F. clear F.
  destruct sb as [s|], sb' as [s'|]; [destruct (list_eq_dec _ _ _) as [E|E]| | |]; cbn [bind Z.leb Z.compare]; try (split; [discriminate|intros [_ [_ H]]; congruence]).
  - rewrite <- E. destruct (point_eqb Q Q'); split; intros H; try discriminate; [split; [apply GE; reflexivity|split; [apply PE; reflexivity|reflexivity]]|reflexivity|].
    destruct H as [_ [H _]]. apply PE in H. discriminate.
  - destruct (point_eqb Q Q'); split; intros H; try discriminate; [split; [apply GE; reflexivity|split; [apply PE; reflexivity|reflexivity]]|reflexivity|].
    destruct H as [_ [H _]]. apply PE in H. discriminate.
Qed.
(** Keys decoded from parameters alone have no public key. *)
Lemma params_key solve p le k : key_from_asn1 solve p le = Some k -> exists g sb, k = DKEY (ECKEY (Some (Binary g)) None None) sb.
Proof.
  unfold key_from_asn1. destruct (match ap_sbox p with Some _ => _ | None => _ end) as [sb|]; [|discriminate]. destruct (match ap_curve p with Named _ => _ | Custom _ => _ end) as [g|]; [|discriminate].
  intros [= <-]. exists g, sb. reflexivity.
Qed.
Lemma cmp_crashes d2i solve t der k : key_type t -> param_decode d2i solve t der = Some k -> evp_cmp (PKEY t (Some k)) (PKEY t (Some k)) = Undefined.
Proof.
  intros T H. apply is_dstu_ok in T. unfold param_decode in H. destruct (d2i der); [|discriminate]. apply params_key in H. destruct H as [g [sb ->]].
  unfold evp_cmp. cbn [pk_type]. rewrite Z.eqb_refl, T. cbn [negb]. unfold param_cmp. cbn [pk_key dk_ec dk_sbox ek_group]. rewrite group_cmp_refl. cbn [bind Z.eqb].
  destruct sb as [s|]; [destruct (list_eq_dec _ _ _); [|contradiction]|]; reflexivity.
Qed.

(** * What decoding accepts *)
Lemma weight_gt p : weight p = 3 \/ weight p = 5 -> 1 < p.
Proof. intros H. destruct p as [|[q|q|]]; cbn in H; lia. Qed.
Lemma group_valid solve c le g : group_from_asn1 solve c le = Some g ->
  (cu_a c = 0 \/ cu_a c = 1)%Z /\ poly_of_spec (cu_field c) = Some (c_p (g_curve g)) /\ (weight (c_p (g_curve g)) = 3 \/ weight (c_p (g_curve g)) = 5) /\
  Z.of_N (c_a (g_curve g)) = cu_a c /\ c_b (g_curve g) = pmod (be_val (if le then rev (cu_b c) else cu_b c)) (c_p (g_curve g)) /\
  (exists x y, g_gen g = Some (x, y) /\ on_curve (g_curve g) x y) /\ Z.of_N (g_order g) = cu_n c /\ (0 < cu_n c)%Z /\ g_cofactor g = 1.
Proof.
  unfold group_from_asn1. destruct (poly_of_spec (cu_field c)) as [p|]; [|discriminate]. destruct (Z.eqb_spec (cu_a c) 1) as [A1|A1], (Z.eqb_spec (cu_a c) 0) as [A0|A0]; cbn [negb andb]; try discriminate.
  - lia.
  - destruct (in_order le (cu_b c)) as [b|] eqn:B; [|discriminate]. unfold new_curve. destruct ((weight p =? 3) || (weight p =? 5)) eqn:W; [|discriminate].
    destruct (in_order le (cu_bp c)) as [bp|]; [|discriminate]. destruct (expand solve bp _) as [G|] eqn:E; [|discriminate]. destruct (Z.ltb_spec (cu_n c) 0); [discriminate|].
    unfold set_generator. destruct (N.eqb_spec (Z.to_N (cu_n c)) 0); [discriminate|]. cbn [orb]. destruct (_ <? _); [discriminate|]. intros [= <-]. cbn [g_curve g_gen g_order g_cofactor c_p c_a c_b].
    rewrite orb_true_iff, !N.eqb_eq in W. pose proof (weight_gt p W) as Hp. rewrite A1 in E |- *. change (Z.to_N 1) with 1 in *. rewrite (elem_pmod p 1 Hp (elem_1 p Hp)) in *.
    split; [right; reflexivity|]. split; [reflexivity|]. split; [exact W|]. split; [reflexivity|].
    split; [unfold in_order in B; destruct le; [destruct (cu_b c); [discriminate|]|]; injection B as <-; reflexivity|].
    split; [destruct (expand_on_curve (CURVE p 1 (pmod (be_val b) p)) solve bp G Hp ltac:(apply pmod_elem; exact Hp) E) as [x [y H']]; exists x, y; exact H'|]. split; [lia|]. split; [lia|reflexivity].
  - destruct (in_order le (cu_b c)) as [b|] eqn:B; [|discriminate]. unfold new_curve. destruct ((weight p =? 3) || (weight p =? 5)) eqn:W; [|discriminate].
    destruct (in_order le (cu_bp c)) as [bp|]; [|discriminate]. destruct (expand solve bp _) as [G|] eqn:E; [|discriminate]. destruct (Z.ltb_spec (cu_n c) 0); [discriminate|].
    unfold set_generator. destruct (N.eqb_spec (Z.to_N (cu_n c)) 0); [discriminate|]. cbn [orb]. destruct (_ <? _); [discriminate|]. intros [= <-]. cbn [g_curve g_gen g_order g_cofactor c_p c_a c_b].
    rewrite orb_true_iff, !N.eqb_eq in W. pose proof (weight_gt p W) as Hp. rewrite A0 in E |- *. change (Z.to_N 0) with 0 in *. change (pmod 0 p) with 0 in *.
    split; [left; reflexivity|]. split; [reflexivity|]. split; [exact W|]. split; [reflexivity|].
    split; [unfold in_order in B; destruct le; [destruct (cu_b c); [discriminate|]|]; injection B as <-; reflexivity|].
    split; [destruct (expand_on_curve (CURVE p 0 (pmod (be_val b) p)) solve bp G Hp ltac:(apply pmod_elem; exact Hp) E) as [x [y H']]; exists x, y; exact H'|]. split; [lia|]. split; [lia|reflexivity].
Qed.
Lemma obj_back o : (1160 <= curve_obj2nid o <= 1169)%Z -> curve_nid2obj (curve_obj2nid o) = Some o.
Proof.
  intros H. unfold curve_nid2obj. replace ((1160 <=? curve_obj2nid o) && (curve_obj2nid o <=? 1169))%Z with true by (symmetry; apply andb_true_iff; split; apply Z.leb_le; lia).
  unfold curve_obj2nid in *. destruct (find _ (seq 0 10)) as [i|] eqn:F; [|lia]. apply find_some in F. destruct F as [_ F].
  destruct (list_eq_dec _ _ _) as [E|]; [|discriminate]. replace (Z.to_N (1160 + Z.of_nat i - 1160)) with (N.of_nat i) by lia. rewrite E. reflexivity.
Qed.
Lemma params_valid solve prm le k : key_from_asn1 solve prm le = Some k ->
  exists g, ek_group (dk_ec k) = Some (Binary g) /\
  match ap_sbox prm with Some s => length s = 64%nat /\ effective (dk_sbox k) = s | None => dk_sbox k = None end /\
  match ap_curve prm with
  | Named o => exists nid, (1160 <= nid <= 1169)%Z /\ curve_nid2obj nid = Some o /\ group_from_nid nid = Some g
  | Custom c => (cu_a c = 0 \/ cu_a c = 1)%Z /\ poly_of_spec (cu_field c) = Some (c_p (g_curve g)) /\ (0 < cu_n c)%Z /\ exists x y, g_gen g = Some (x, y) /\ on_curve (g_curve g) x y
  end.
Proof.
  unfold key_from_asn1. intros H. destruct (match ap_sbox prm with Some _ => _ | None => _ end) as [sb|] eqn:S; [|discriminate].
  destruct (match ap_curve prm with Named _ => _ | Custom _ => _ end) as [g|] eqn:G; [|discriminate]. injection H as <-. exists g. cbn [dk_ec ek_group dk_sbox]. split; [reflexivity|]. split.
  - destruct (ap_sbox prm) as [s|]; [|injection S as <-; reflexivity]. destruct (Nat.eqb_spec (length s) 64) as [L|]; [|discriminate]. injection S as <-. split; [exact L|].
    destruct (is_default_sbox s) eqn:D; [|reflexivity]. apply is_default_ok in D. symmetry. exact D.
  - destruct (ap_curve prm) as [o|c].
    + exists (curve_obj2nid o). destruct (Z_lt_le_dec (curve_obj2nid o) 1160) as [L|L]; [rewrite other in G by lia; discriminate|]. destruct (Z_lt_le_dec 1169 (curve_obj2nid o)) as [L'|L']; [rewrite other in G by lia; discriminate|].
      split; [lia|]. split; [|exact G]. apply obj_back; lia.
    + destruct (group_valid _ _ _ _ G) as [A [P [_ [_ [_ [X [_ [N _]]]]]]]]. split; [exact A|]. split; [exact P|]. split; [exact N|exact X].
Qed.

Lemma rev_zeros n : rev (zeros n) = zeros n.
Proof.
  unfold zeros. induction n as [|n IH]; [reflexivity|]. cbn [repeat rev]. rewrite IH. clear IH. induction n as [|n IH]; [reflexivity|]. cbn [repeat app]. rewrite IH. reflexivity.
Qed.
(** * The order is not checked *)
Lemma order_free solve f a b n n' bp le g : group_from_asn1 solve (CUSTOM f a b n bp) le = Some g -> (0 < n')%Z -> num_bits (Z.to_N n') <= num_bits (c_p (g_curve g)) + 1 ->
  group_from_asn1 solve (CUSTOM f a b n' bp) le = Some (GROUP (g_curve g) (g_gen g) (Z.to_N n') 1).
Proof.
  unfold group_from_asn1. cbn [cu_field cu_a cu_b cu_n cu_bp]. destruct (poly_of_spec f) as [p|]; [|discriminate]. destruct (_ && _); [discriminate|]. destruct (in_order le b) as [b'|]; [|discriminate].
  destruct (new_curve p _ _) as [c|]; [|discriminate]. destruct (in_order le bp) as [bp'|]; [|discriminate]. destruct (expand _ _ _) as [G|]; [|discriminate].
  destruct (n <? 0)%Z; [discriminate|]. unfold set_generator. destruct (_ || _); [discriminate|]. intros [= <-]. cbn [g_curve g_gen]. intros P S.
  destruct (Z.ltb_spec n' 0); [lia|]. destruct (N.eqb_spec (Z.to_N n') 0); [lia|]. cbn [orb]. destruct (N.ltb_spec (num_bits (c_p c) + 1) (num_bits (Z.to_N n'))); [lia|]. reflexivity.
Qed.
(** b may be zero, for every field and either byte order. *)
Lemma pmod_0 p : pmod 0 p = 0.
Proof. reflexivity. Qed.
Lemma gsqrs_0 p n : gsqrs p n 0 = 0.
Proof. induction n as [|n IH]; [reflexivity|]. exact IH. Qed.
Lemma zero_curve solve f a le p : poly_of_spec f = Some p -> weight p = 3 \/ weight p = 5 -> (a = 0 \/ a = 1)%Z -> forall k, field_size (CURVE p (Z.to_N a) 0) <= N.of_nat k ->
  group_from_asn1 solve (CUSTOM f a (zeros k) 1 (zeros k)) le = Some (GROUP (CURVE p (Z.to_N a) 0) (Some (0, 0)) 1 1).
Proof.
  intros P W A k K. pose proof (weight_gt p W) as Hp. pose proof (field_size_pos (CURVE p (Z.to_N a) 0) ltac:(cbn; pose proof (degree_pos p Hp); lia)) as FP.
  assert (ZO : in_order le (zeros k) = Some (zeros k)).
  { unfold in_order. destruct le; [|reflexivity]. destruct k as [|k]; [lia|]. change (zeros (S k)) with (0 :: zeros k) at 1. cbv iota. rewrite rev_zeros. reflexivity. }
  unfold group_from_asn1. cbn [cu_field cu_a cu_b cu_n cu_bp]. rewrite P, ZO. replace (negb (a =? 1)%Z && negb (a =? 0)%Z) with false by (destruct A; subst a; reflexivity).
  unfold new_curve. replace ((weight p =? 3) || (weight p =? 5)) with true by (destruct W as [-> | ->]; reflexivity). rewrite be_val_zeros, pmod_0.
  replace (pmod (Z.to_N a) p) with (Z.to_N a) by (symmetry; apply elem_pmod; [exact Hp|]; destruct A; subst a; [apply elem_0|apply elem_1]; exact Hp).
  unfold expand. cbn [c_p c_a c_b]. destruct (N.ltb_spec (N.of_nat (length (zeros k))) (field_size (CURVE p (Z.to_N a) 0))) as [L|_]; [unfold zeros in L; rewrite repeat_length in L; lia|].
  rewrite be_val_zeros. change (0 =? 0) with true. cbv iota. unfold gsqrt. rewrite pmod_0, gsqrs_0. unfold set_affine, on_curveb. cbn [c_p c_a c_b].
  replace (gmul p (N.lxor (gmul p (N.lxor 0 (Z.to_N a)) 0) 0) 0) with 0.
  2:{ symmetry. unfold gmul at 1. rewrite clmul_0_r. reflexivity. }
  change (gsqr p 0) with 0. cbn [N.lxor N.eqb]. change (1 <? 0)%Z with false. cbv iota. unfold set_generator. change (Z.to_N 1) with 1. cbn [N.eqb orb c_p].
  destruct (N.ltb_spec (num_bits p + 1) (num_bits 1)) as [L|_]; [cbn in L; lia|]. reflexivity.
Qed.

(** * The point of order two *)
Lemma zero_point g : well_formed g -> exists y, on_curve (g_curve g) 0 y /\ pmul (g_curve g) 2 (Some (0, y)) = None /\ forall k, pmul (g_curve g) k (g_gen g) <> Some (0, y).
Proof.
  intros W. pose proof (wf_nonsing g W) as NS. assert (W' := W). destruct W' as [_ [_ [[gx [gy [Eg [G _]]]] [_ [Od Nn]]]]].
  set (c := g_curve g) in *. assert (OC : on_curve c 0 (gsqrt (c_p c) (c_b c))).
  { destruct c as [p a b]. destruct NS as [Hirr [Ha [Hb Hb0]]]. cbn [c_p c_a c_b] in *. assert (Hp : 1 < p) by apply Hirr.
    split; [apply elem_0; exact Hp|]. split; [apply gsqrt_elem; exact Hp|]. cbn [c_p c_a c_b]. change (gsqr p 0) with 0. unfold gmul. rewrite !clmul_0_r. cbn [clmul]. rewrite !pmod_0, !N.lxor_0_l, N.lxor_0_r.
    apply (elem_eq p Hp); [apply gmul_elem; exact Hp|exact Hb|]. destruct (eqm_equiv p) as [_ _ Tr]. eapply Tr; [apply gsqr_eqm; exact Hp|]. apply gsqrt_sq; assumption. }
  exists (gsqrt (c_p c) (c_b c)). split; [exact OC|]. set (y := gsqrt _ _) in *.
  assert (T : pmul c 2 (Some (0, y)) = None) by (unfold pmul, pmulp, padd; cbv zeta; rewrite orb_true_r; reflexivity). split; [exact T|]. intros k K.
  assert (GP : curve_point c (g_gen g)) by (rewrite Eg; exact G). assert (PP : curve_point c (Some (0, y))) by exact OC.
  assert (PN : forall h, pmul c h None = None) by (intros h; clearbody c; clear -NS; open_c c NS; apply pmul_None; assumption).
  assert (X : pmul c (g_order g) (Some (0, y)) = None).
  { rewrite <- K. destruct (multiples c (g_order g) k (g_gen g) NS GP) as [_ [_ [_ <-]]]. rewrite N.mul_comm. destruct (multiples c k (g_order g) (g_gen g) NS GP) as [_ [_ [_ ->]]].
    rewrite Nn. apply PN. }
  apply N.odd_spec in Od. destruct Od as [h Eh]. rewrite Eh in X. destruct (multiples c (2 * h) 1 (Some (0, y)) NS PP) as [_ [O1 [E _]]]. rewrite E, O1 in X.
  rewrite (N.mul_comm 2 h) in X. destruct (multiples c h 2 (Some (0, y)) NS PP) as [_ [_ [_ M]]]. rewrite M, T in X.
  rewrite PN in X. discriminate X.
Qed.
Lemma zero_accepted d2i d2o solve t prm g sb : reads_octets d2o -> key_type t -> well_formed g -> api_group g -> good_solver (c_p (g_curve g)) solve ->
  param_decode d2i solve t prm = Some (DKEY (ECKEY (Some (Binary g)) None None) sb) ->
  exists y, pub_decode d2i d2o solve (KEYINFO (ALGOR t (Some prm)) (enc_octets (zeros (N.to_nat (field_size (g_curve g)))))) = Some (key_of t g None (Some (0, y)) sb) /\
    pmul (g_curve g) 2 (Some (0, y)) = None /\ forall k, pmul (g_curve g) k (g_gen g) <> Some (0, y).
Proof.
  intros R T W AG GS H. destruct (zero_point g W) as [y [OC [Y2 Yk]]]. exists y. split; [|split; assumption]. apply is_dstu_ok in T. pose proof (get_facts g W AG) as F.
  unfold pub_decode. cbn [ki_alg al_nid al_params ki_key]. rewrite T, H. cbn [negb dk_ec ek_group ek_priv dk_sbox]. pose proof (field_size_pos (g_curve g) ltac:(destruct F; lia)) as FP.
  assert (FS : field_size (g_curve g) < 2 ^ 31) by (destruct AG as [_ [_ [_ D]]]; unfold field_size; apply N.div_lt_upper_bound; lia).
  rewrite <- (app_nil_r (enc_octets _)), (reads_enc_octets d2o _ _ R) by (unfold zeros; rewrite repeat_length; lia). set (n := N.to_nat _) in *.
  assert (ZO : in_order (is_le t) (zeros n) = Some (zeros n)).
  { unfold in_order. destruct (is_le t); [|reflexivity]. destruct n as [|k] eqn:En; [lia|]. change (zeros (S k)) with (0 :: zeros k) at 1. cbv iota. rewrite rev_zeros. reflexivity. }
  rewrite ZO. replace (expand solve (zeros n) (g_curve g)) with (Some (Some (0, y))); [reflexivity|]. symmetry.
  apply (expand_iff_all _ solve (zeros n) 0 y (proj1 W) GS). split; [unfold zeros; rewrite repeat_length; lia|]. split; [exact OC|]. left. split; [apply be_val_zeros|reflexivity].
Qed.
Lemma zero_accepted_der d2i d2o solve t prm g sb w : reads_octets d2o -> key_type t -> well_formed g -> api_group g -> good_solver (c_p (g_curve g)) solve ->
  param_decode d2i solve t prm = Some (DKEY (ECKEY (Some (Binary g)) None None) sb) -> der_octets (zeros (N.to_nat (field_size (g_curve g)))) w ->
  exists y, pub_decode d2i d2o solve (KEYINFO (ALGOR t (Some prm)) w) = Some (key_of t g None (Some (0, y)) sb) /\
    pmul (g_curve g) 2 (Some (0, y)) = None /\ forall k, pmul (g_curve g) k (g_gen g) <> Some (0, y).
Proof. intros R T W AG GS H D. rewrite (der_len_unique _ _ _ D (enc_octets_der _)). exact (zero_accepted d2i d2o solve t prm g sb R T W AG GS H). Qed.
Lemma pub_on_curve d2i d2o solve pub pk : pub_decode d2i d2o solve pub = Some pk -> exists t g x y sb, pk = key_of t g None (Some (x, y)) sb /\ on_curve (g_curve g) x y.
Proof.
  unfold pub_decode. destruct (al_params _) as [prm|]; [|discriminate]. destruct (negb _); [discriminate|]. destruct (param_decode _ _ _ _) as [k|] eqn:E; [|discriminate].
  unfold param_decode in E. destruct (d2i prm) as [ps|]; [|discriminate]. destruct (params_key _ _ _ _ E) as [g [sb ->]]. cbn [dk_ec ek_group ek_priv dk_sbox].
  destruct (d2o _) as [s|]; [|discriminate]. destruct (in_order _ s) as [s'|]; [|discriminate]. destruct (expand solve s' (g_curve g)) as [Q|] eqn:X; [|discriminate]. intros [= <-].
  assert (V : 1 < c_p (g_curve g) /\ elem (c_p (g_curve g)) (c_b (g_curve g))).
  { unfold key_from_asn1 in E. destruct (match ap_sbox ps with Some _ => _ | None => _ end) as [sb'|]; [|discriminate]. destruct (ap_curve ps) as [o|c].
    - destruct (group_from_nid _) as [g'|] eqn:G; [|discriminate]. injection E as -> _. rewrite from_nid in G. destruct (_ && _)%Z eqn:B; [|discriminate]. injection G as <-.
      rewrite andb_true_iff, !Z.leb_le in B. assert (Wf := proj2 (named (Z.to_nat (curve_obj2nid o - 1160)) ltac:(lia))). split; [apply wf_p, Wf|]. destruct (wf_nonsing _ Wf) as [_ [_ [Hb _]]]. exact Hb.
    - destruct (group_from_asn1 _ _ _) as [g'|] eqn:G; [|discriminate]. injection E as -> _. destruct (group_valid _ _ _ _ G) as [_ [_ [Wt [_ [Eb _]]]]]. pose proof (weight_gt _ Wt) as Hp.
      split; [exact Hp|]. rewrite Eb. apply pmod_elem. exact Hp. }
  destruct (expand_on_curve _ solve s' Q (proj1 V) (proj2 V) X) as [x [y [-> OC]]]. exists (al_nid (ki_alg pub)), g, x, y, sb. split; [reflexivity|exact OC].
Qed.

(** * Private keys *)
Lemma priv_any d2i solve t prm g sb bytes : key_type t -> param_decode d2i solve t prm = Some (DKEY (ECKEY (Some (Binary g)) None None) sb) -> bytes <> [] ->
  priv_decode d2i solve (KEYINFO (ALGOR t (Some prm)) bytes) = Some (key_of t g (Some (le_val bytes)) (pneg (pmul (g_curve g) (le_val bytes) (g_gen g))) sb).
Proof.
  intros T H B. apply is_dstu_ok in T. unfold priv_decode. cbn [ki_alg al_nid al_params ki_key]. rewrite T, H. cbn [negb]. destruct bytes as [|x l]; [contradiction|].
  unfold be_val. rewrite rev_involutive. unfold add_public_key. cbn [dk_ec ek_group ek_priv ek_pub dk_sbox]. reflexivity.
Qed.
Lemma priv_zero t g Q sb p8 : priv_encode (key_of t g (Some 0) Q sb) <> Ok p8.
Proof.
  unfold priv_encode, key_of. cbn [pk_type pk_key dk_ec ek_priv]. destruct (negb _); [discriminate|]. destruct (param_encode _); discriminate.
Qed.

(** * Reading elements that were never written *)
Lemma nid_odd g : curve_nid_from_group g <> 0%Z -> N.testbit (c_p (g_curve g)) 0 = true.
Proof.
  intros H. pose proof (nid_range g H) as R. pose proof (recognised g H) as G. rewrite from_nid in G. replace ((1160 <=? _) && _)%Z with true in G by (symmetry; apply andb_true_iff; split; apply Z.leb_le; lia).
  injection G as <-. set (i := Z.to_nat _) in *. assert (I : (i < 10)%nat) by (unfold i; lia). clearbody i. clear -I. do 10 (destruct i as [|i]; [reflexivity|]). lia.
Qed.
Lemma exponents_even5 p : weight p = 5 -> N.testbit p 0 = false -> exists a b c d e, exponents p = [a; b; c; d; e] /\ 0 < e.
Proof.
  intros W B. pose proof (exponents_length p) as L. rewrite W in L. destruct p as [|q]; [discriminate|]. destruct q as [q|q|]; try discriminate. cbn [exponents pexponents] in *.
  pose proof (pexp_ge q (0 + 1)) as G. apply Forall_rev in G. set (l := rev _) in *. destruct l as [|a [|b [|c [|d [|e [|]]]]]]; cbn in L; try lia.
  exists a, b, c, d, e. split; [reflexivity|]. do 4 (apply Forall_inv_tail in G). apply Forall_inv in G. lia.
Qed.
Lemma encode_undefined g d Q sb le : weight (c_p (g_curve g)) = 3 \/ weight (c_p (g_curve g)) = 5 -> degree (c_p (g_curve g)) < 2 ^ 30 ->
  (asn1_from_key (DKEY (ECKEY (Some (Binary g)) d Q) sb) le = Undefined <-> g_order g <> 0 /\ weight (c_p (g_curve g)) = 3 /\ N.testbit (c_p (g_curve g)) 0 = false).
Proof.
  intros W D. pose proof (weight_gt _ W) as Hp. unfold asn1_from_key. cbn [dk_ec ek_group dk_sbox]. cbv zeta. destruct (Z.eqb_spec (curve_nid_from_group g) 0) as [E|E].
  2:{ pose proof (nid_odd g E) as B. rewrite B. destruct (curve_oid_back _ (nid_range g E)) as [o [-> _]]. split; [discriminate|intros [_ [_ X]]; discriminate]. }
  split.
  - intros H. destruct (custom_from_group g le) as [| |c] eqn:C; try discriminate. clear H. destruct (N.testbit (c_p (g_curve g)) 0) eqn:B.
    + exfalso. destruct (middle_back _ Hp B W D) as [mid [M [E0 _]]]. unfold custom_from_group in C. destruct (g_order g =? 0); [discriminate|]. destruct (c_p (g_curve g) =? 0); [discriminate|]. rewrite E0, M in C. cbn [bind] in C.
      destruct (bn_encode _ _) as [[bb r]|]; [|discriminate]. destruct (r =? 0); [discriminate|]. destruct (compress _ _ _); discriminate.
    + destruct W as [W|W].
      * split; [|split; [exact W|reflexivity]]. intros O. unfold custom_from_group in C. rewrite O in C. discriminate.
      * exfalso. destruct (exponents_even5 _ W B) as [a [b [c [e [f [X P]]]]]]. unfold custom_from_group in C. destruct (g_order g =? 0); [discriminate|]. destruct (c_p (g_curve g) =? 0); [discriminate|].
        unfold poly2arr in C. rewrite X in C. cbn [map app firstn repeat] in C. unfold middle_of, elt in C. cbn [nth bind] in C.
        replace (Z.of_N e =? -1)%Z with false in C by (symmetry; apply Z.eqb_neq; lia). replace (Z.of_N f =? 0)%Z with false in C by (symmetry; apply Z.eqb_neq; lia). discriminate C.
  - intros [O [W3 B]]. rewrite custom_undefined by assumption. reflexivity.
Qed.

(** * The statements of Prop_Key *)
Lemma one_same g g' : g_cofactor g = 1 -> g' = g \/ curve_nid_from_group g = 0%Z /\ g' = cofactor_one g -> g' = g.
Proof. intros H [E|[_ E]]; [exact E|]. rewrite E. destruct g as [c G n h]. cbn in *. subst h. reflexivity. Qed.
Lemma named_cofactor g : curve_nid_from_group g <> 0%Z -> g_cofactor g = 1.
Proof.
  intros H. pose proof (nid_range g H) as R. pose proof (recognised g H) as G. rewrite from_nid in G. replace ((1160 <=? _) && _)%Z with true in G by (symmetry; apply andb_true_iff; split; apply Z.leb_le; lia).
  injection G as <-. set (i := Z.to_nat _) in *. assert (I : (i < 10)%nat) by (unfold i; lia). clearbody i. clear -I. do 10 (destruct i as [|i]; [reflexivity|]). lia.
Qed.
Lemma param_keeps d2i solve t g d Q sb der : reads_params d2i -> well_formed g -> api_group g -> good_solver (c_p (g_curve g)) solve -> sbox_ok sb -> g_cofactor g = 1 ->
  param_encode (PKEY t (Some (DKEY (ECKEY (Some (Binary g)) d Q) sb))) = Ok der ->
  exists sb', effective sb' = effective sb /\ param_decode d2i solve t der = Some (DKEY (ECKEY (Some (Binary g)) None None) sb').
Proof.
  intros R W AG S SB C H. destruct (param_round d2i solve t g d Q sb der R W AG S SB H) as [g' [G E]]. rewrite (one_same g g' C G) in E. exists (stored sb). split; [apply stored_effective|exact E].
Qed.
Lemma param_cofactor d2i solve t g d Q sb der : reads_params d2i -> well_formed g -> api_group g -> good_solver (c_p (g_curve g)) solve -> sbox_ok sb -> g_cofactor g <> 1 ->
  param_encode (PKEY t (Some (DKEY (ECKEY (Some (Binary g)) d Q) sb))) = Ok der ->
  exists sb', param_decode d2i solve t der = Some (DKEY (ECKEY (Some (Binary (cofactor_one g))) None None) sb') /\
    group_cmp (Some (Binary g)) (Some (Binary (cofactor_one g))) = Ok 1%Z.
Proof.
  intros R W AG S SB C H. destruct (param_round d2i solve t g d Q sb der R W AG S SB H) as [g' [G E]].
  assert (g' = cofactor_one g) by (destruct G as [->|[_ G]]; [|exact G]; destruct (Z.eq_dec (curve_nid_from_group g) 0) as [Z|Z]; [|apply named_cofactor in Z; contradiction];
    exfalso; revert E; unfold param_encode in H; cbn [pk_key pk_type] in H; destruct (asn1_from_key _ _) as [| |prm] eqn:A; try discriminate; cbn [bind] in H; injection H as <-;
    destruct (params_back solve g d Q sb _ prm W AG S SB A) as [P _]; unfold param_decode; rewrite <- (app_nil_r (enc_params prm)), (reads_enc_params d2i _ _ R) by exact P; unfold asn1_from_key in A; cbn [dk_ec ek_group dk_sbox] in A; cbv zeta in A; rewrite Z in A; cbn [Z.eqb] in A;
    destruct (custom_from_group g _) as [| |c] eqn:CU; try discriminate; cbn [bind] in A; injection A as <-; unfold key_from_asn1; cbn [ap_sbox ap_curve]; destruct (custom_back solve g _ c W AG S CU) as [-> _];
    destruct (match stored sb with Some _ => _ | None => _ end) as [x|]; [|discriminate]; intros [= X _]; apply C; rewrite <- X; reflexivity).
  subst g'. exists (stored sb). split; [exact E|]. cbn [group_cmp]. destruct (group_eqb g (cofactor_one g)) eqn:X; [|reflexivity]. apply group_eqb_eq in X. exfalso. apply C. rewrite X. reflexivity.
Qed.
Lemma param_encodes t g d Q sb : well_formed g -> api_group g -> curve_nid_from_group g <> 0%Z \/ has_compressed_form (g_curve g) (g_gen g) ->
  exists der, param_encode (PKEY t (Some (DKEY (ECKEY (Some (Binary g)) d Q) sb))) = Ok der.
Proof. intros W AG H. unfold param_encode. cbn [pk_key pk_type]. destruct (params_total g d Q sb (is_le t) W AG H) as [prm ->]. eexists. reflexivity. Qed.
Lemma priv_keeps d2i solve t g d Q sb p8 : reads_params d2i -> well_formed g -> api_group g -> good_solver (c_p (g_curve g)) solve -> sbox_ok sb -> g_cofactor g = 1 -> key_pair g d Q ->
  priv_encode (key_of t g (Some d) Q sb) = Ok p8 ->
  exists sb', effective sb' = effective sb /\ priv_decode d2i solve p8 = Some (key_of t g (Some d) Q sb').
Proof.
  intros R W AG S SB C K H. destruct (priv_round d2i solve t g d Q sb p8 R W AG S SB K H) as [g' [G E]]. rewrite (one_same g g' C G) in E. exists (stored sb). split; [apply stored_effective|exact E].
Qed.
Lemma pub_keeps d2i d2o solve t g d k x y sb pub : reads_params d2i -> reads_octets d2o -> well_formed g -> api_group g -> good_solver (c_p (g_curve g)) solve -> sbox_ok sb -> g_cofactor g = 1 ->
  pmul (g_curve g) k (g_gen g) = Some (x, y) -> pub_encode (key_of t g d (Some (x, y)) sb) = Ok pub ->
  exists sb', effective sb' = effective sb /\ pub_decode d2i d2o solve pub = Some (key_of t g None (Some (x, y)) sb').
Proof.
  intros R RO W AG S SB C K H. destruct (multiples_compressible g k x y W K) as [OC CO].
  destruct (pub_round d2i d2o solve t g d x y sb pub R RO W AG S SB OC (or_introl CO) H) as [g' [G E]]. rewrite (one_same g g' C G) in E. exists (stored sb). split; [apply stored_effective|exact E].
Qed.
Lemma pub_encodes t g d k x y sb : key_type t -> well_formed g -> api_group g -> curve_nid_from_group g <> 0%Z \/ has_compressed_form (g_curve g) (g_gen g) ->
  pmul (g_curve g) k (g_gen g) = Some (x, y) -> ((exists pub, pub_encode (key_of t g d (Some (x, y)) sb) = Ok pub) <-> has_compressed_form (g_curve g) (Some (x, y))).
Proof.
  intros T W AG H K. destruct (multiples_compressible g k x y W K) as [OC CO]. split; [|intros HC; apply pub_total; assumption].
  intros [pub E]. unfold pub_encode, key_of in E. cbn [pk_type pk_key dk_ec ek_group ek_pub] in E. destruct (negb _); [discriminate|]. destruct (param_encode _) as [| |der]; try discriminate. cbn [bind] in E. cbv zeta in E. destruct (field_size _ =? 0); [discriminate|].
  destruct (compress _ _ _) as [out|] eqn:X; [|discriminate]. cbn [has_compressed_form]. destruct (N.eq_dec x 1) as [E1|]; [|left; assumption]. right.
  destruct (N.eq_dec (trace_of (c_p (g_curve g)) y) 1) as [|Tr]; [assumption|exfalso]. subst x. destruct (dstu_parts _ (proj1 W)) as [p [a [b [Ec [Hp [Hirr _]]]]]]. rewrite Ec in *.
  cbn [c_p] in *. pose proof OC as [_ [Hy _]]. cbn [c_p] in Hy.
  destruct (compress_ok p Hp Hirr a b 1 y (field_size (CURVE p a b)) (elem_1 p Hp) Hy ltac:(discriminate) ltac:(lia)) as [z [t' [Hz [Ez [Tz _]]]]]. rewrite one_mul in Ez by assumption. subst z.
  rewrite (compress_one p Hp Hirr a b y OC) in X; [discriminate|]. destruct t'; [contradiction|exact Tz].
Qed.
Lemma decoded_cmp_eq d2i solve t g d Q sb der k : reads_params d2i -> well_formed g -> api_group g -> good_solver (c_p (g_curve g)) solve -> sbox_ok sb -> g_cofactor g = 1 ->
  param_encode (key_of t g d Q sb) = Ok der -> param_decode d2i solve t der = Some k ->
  param_cmp (key_of t g d Q sb) (PKEY t (Some k)) = Ok (match sb with Some s => if list_eq_dec N.eq_dec s default_sbox then 0 else 1 | None => 1 end)%Z.
Proof.
  intros R W AG S SB C H D. destruct (param_round d2i solve t g d (Some Q) sb der R W AG S SB H) as [g' [G E]]. rewrite (one_same g g' C G) in E. rewrite E in D. injection D as <-. rewrite decoded_cmp.
  destruct sb as [s|]; [|reflexivity]. destruct (list_eq_dec N.eq_dec s default_sbox) as [e|n].
  - apply is_default_ok in e. rewrite e. reflexivity.
  - destruct (is_default_sbox s) eqn:X; [apply is_default_ok in X; contradiction|reflexivity].
Qed.
Lemma negative_degree : let f := BF (5 - 2 ^ 32) (Trinomial 2) in let prm := PARAMS (Custom (CUSTOM f 1 [2] 17 [2])) None in
  ap_curve prm = Custom (CUSTOM f 1 [2] 17 [2]) /\ (bf_m f < 0)%Z /\ params_ok prm /\
  forall le, key_from_asn1 solve_quad prm le = Some (DKEY (ECKEY (Some (Binary toy_group)) None None) None) /\ degree (c_p (g_curve toy_group)) = 5.
Proof.
  intros f prm. split; [reflexivity|]. split; [vm_compute; reflexivity|].
  assert (S2 : string_ok [2]) by (split; [repeat constructor|vm_compute; reflexivity]).
  assert (I : forall x k, (0 <= k < 2 ^ 31)%Z -> (- 2 ^ k < x < 2 ^ k)%Z -> integer_ok x).
  { intros x k K X. destruct (Z_lt_le_dec x 0) as [L|L]; [|apply int_ok_small with k; lia]. unfold integer_ok. assert (H : (2 ^ k <= 2 ^ (2 ^ 31))%Z) by (apply Z.pow_le_mono_r; lia).
    revert H. generalize (2 ^ (2 ^ 31))%Z. intros B H. revert X H. generalize (2 ^ k)%Z. intros P X H. clear -X H. lia. }
  split.
  - assert (I1 : integer_ok (5 - 2 ^ 32)) by (refine (I (5 - 2 ^ 32)%Z 33%Z _ _); lia). assert (I2 : integer_ok 2) by (refine (I 2%Z 33%Z _ _); lia).
    assert (I3 : integer_ok 1) by (refine (I 1%Z 33%Z _ _); lia). assert (I4 : integer_ok 17) by (refine (I 17%Z 33%Z _ _); lia).
    exact (conj (conj I1 (conj I2 (conj I3 (conj S2 (conj I4 S2))))) Logic.I).
  - intros [|]; vm_compute; split; reflexivity.
Qed.
Lemma priv_range d2i solve t prm g sb : key_type t -> param_decode d2i solve t prm = Some (DKEY (ECKEY (Some (Binary g)) None None) sb) ->
  priv_decode d2i solve (KEYINFO (ALGOR t (Some prm)) [0]) = Some (key_of t g (Some 0) None sb) /\
  forall d, g_order g <= d -> exists bytes, priv_decode d2i solve (KEYINFO (ALGOR t (Some prm)) bytes) = Some (key_of t g (Some d) (pneg (pmul (g_curve g) d (g_gen g))) sb).
Proof.
  intros T H. split; [rewrite (priv_any d2i solve t prm g sb [0] T H ltac:(discriminate)); reflexivity|]. intros d _.
  exists (le_bytes (S (N.to_nat (num_bytes d))) d). assert (NE : le_bytes (S (N.to_nat (num_bytes d))) d <> []) by (cbn [le_bytes]; discriminate). rewrite (priv_any d2i solve t prm g sb _ T H NE).
  replace (le_val (le_bytes (S (N.to_nat (num_bytes d))) d)) with d; [reflexivity|]. rewrite le_val_le_bytes, N.mod_small; [reflexivity|].
  apply (N.lt_le_trans _ _ _ (nbytes_gt d)). apply N.pow_le_mono_r; lia.
Qed.
Lemma encode_uninit t d Q sb : param_encode (key_of t (GROUP (CURVE 38 0 1) (Some (0, 1)) 3 1) d Q sb) = Undefined.
Proof. unfold param_encode, key_of. cbn [pk_key pk_type]. rewrite (proj2 (encode_undefined (GROUP (CURVE 38 0 1) (Some (0, 1)) 3 1) d (Some Q) sb _ (or_introl eq_refl) eq_refl)); [reflexivity|]. split; [discriminate|split; reflexivity]. Qed.
