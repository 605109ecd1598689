(** The remaining calls of Model_Ctx on their cells. *)
From Coq Require Import ZArith Lia Permutation.
From Verif Require Import Base Lib Model_Gf2m Model_Compress Model_Ec Model_Params Model_Curves Model_Sign Model_Asn1 Model_Pmeth Model_Key Model_Ameth Model_Ctx Spec_Ctx Proof_Compress2 Proof_Ctx Proof_Ctx2.

Section Calls.
Variable U : Prop.
Local Notation wp := (wpu U).
Variable malloc : nat -> heap -> option nat.
Variable sn2nid : list N -> Z.
Variable d2i : list N -> option params.
Variable d2o : list N -> option (list N).
Variable solve : N -> N -> option N.
Hypothesis HA : allocator malloc.
Let full := never_fails malloc.

Lemma key_group_binary : forall p le k, key_from_asn1 solve p le = Some k -> exists g, ek_group (dk_ec k) = Some (Binary g).
Proof.
  intros p le k. unfold key_from_asn1. destruct (match ap_sbox p with Some _ => _ | None => _ end); [|discriminate].
  destruct (match ap_curve p with Named _ => _ | Custom _ => _ end) as [g|]; [|discriminate]. intros E. injection E as <-. exists g. reflexivity.
Qed.
Lemma pub_decode_wp : forall t0 pub (post : bool * evp_key -> heap -> Prop) F,
  (forall t y, pub_decode d2i d2o solve pub = Some (pkey_of t (Some y)) -> forall h, Permutation h (foot_k y ++ F) -> post (true, evp_of t (Some y)) h) ->
  (forall t y, pub_decode d2i d2o solve pub = None \/ ~ full -> forall h, Permutation h (foot_ok y ++ F) -> post (false, evp_of t y) h) ->
  wp (h_pub_decode malloc d2i d2o solve (evp_of t0 None) pub) post F.
Proof.
  intros t0 pub post F H1 H2. unfold h_pub_decode. unfold pub_decode in H1, H2. cbv zeta in H1, H2.
  assert (forall t, pub_decode d2i d2o solve pub = None \/ ~ full -> post (false, (t, None)) F) as H0
    by (intros t E; apply (H2 t None E); apply Permutation_refl).
  unfold pub_decode in H0. cbv zeta in H0.
  destruct (al_params (ki_alg pub)) as [prm|]; [|wps HA; apply H0; left; reflexivity].
  destruct (negb (is_dstu (al_nid (ki_alg pub)))); [wps HA; apply H0; left; reflexivity|].
  set (nid := al_nid (ki_alg pub)) in *. unfold set_type. unfold pkey_free. cbn [evp_of option_map snd]. wps HA; [|apply H0; right; exact OOM].
  apply (param_decode_wp U malloc d2i solve HA).
  2: { intros E. wps HA. apply H0. destruct E as [E|E]; [rewrite E; left; reflexivity|right; exact E]. }
  intros y E h P. eapply wp_perm; [exact P|]. clear h P. rewrite E in H1, H2. clear H0.
  assert (exists g, ek_group (y_val y) = Some (Binary g)) as [g Eg].
  { unfold param_decode in E. destruct (d2i prm) as [p|]; [|discriminate]. destruct (key_group_binary _ _ _ E) as [g Eg]. exists g. exact Eg. }
  destruct y as [k e v s]. cbn [y_val] in Eg. cbn [val_k y_val dk_ec y_sbox dk_sbox] in H1, H2. rewrite Eg in H1, H2. unfold foot_k. cbn [y_ptr y_ec y_val y_sbox evp_of option_map snd].
  assert (forall h, ~ full -> Permutation h ((k, OKey (Ptr (Some e)) (Ptr (option_map fst s))) :: (e, OEc v) :: opt_cell OSbox s ++ F) -> post (false, (nid, Some k)) h) as H3
    by (intros h O P; exact (H2 nid (Some (KX k e v s)) (or_intror O) h P)).
  unfold key_ec. wps HA; [|eapply H3; [assumption|perm]]. rewrite Eg.
  destruct (d2o (ki_key pub)) as [sg|]; [|wps HA; apply (H2 nid (Some (KX k e v s)) (or_introl eq_refl)); unfold foot_ok, foot_k; cbn; perm].
  unfold in_order in H1, H2. wps HA; [|eapply H3; [assumption|perm]].
  destruct (is_le nid).
  - destruct sg as [|b bs]; [wps HA; apply (H2 nid (Some (KX k e v s)) (or_introl eq_refl)); unfold foot_ok, foot_k; cbn; perm|].
    wps HA; try (eapply H3; [assumption|perm]).
    destruct (expand solve (rev (b :: bs)) (g_curve g)) as [Q|]; [|wps HA; apply (H2 nid (Some (KX k e v s)) (or_introl eq_refl)); unfold foot_ok, foot_k; cbn; perm].
    wps HA. unfold set_public. wps HA; [|eapply H3; [assumption|perm]].
    apply (H1 nid (KX k e (ECKEY (Some (Binary g)) (ek_priv v) (Some Q)) s)); [reflexivity|]. unfold foot_k. cbn. try rewrite Eg. perm.
  - wps HA; try (eapply H3; [assumption|perm]).
    destruct (expand solve sg (g_curve g)) as [Q|]; [|wps HA; apply (H2 nid (Some (KX k e v s)) (or_introl eq_refl)); unfold foot_ok, foot_k; cbn; perm].
    wps HA. unfold set_public. wps HA; [|eapply H3; [assumption|perm]].
    apply (H1 nid (KX k e (ECKEY (Some (Binary g)) (ek_priv v) (Some Q)) s)); [reflexivity|]. unfold foot_k. cbn. try rewrite Eg. perm.
Qed.

(** Encoding. *)
Lemma read_key_wp : forall y (post : dstu_key -> heap -> Prop) F, post (val_k y) (foot_k y ++ F) -> wp (read_key (y_ptr y)) post (foot_k y ++ F).
Proof.
  intros [k e v [[s sv]|]] post F H; unfold read_key, foot_k, opt_cell, val_k in *; cbn [y_ptr y_ec y_val y_sbox option_map fst snd app] in *; wps HA; exact H.
Qed.
Lemma param_encode_wp : forall t y (post : Z * option (nat * list N) -> heap -> Prop) F,
  (~ full -> U) -> (param_encode (pkey_of t y) = Undefined -> U) ->
  (forall s b, param_encode (pkey_of t y) = Ok s -> post (Z.of_nat (length s), Some (b, s)) ((b, OTemp) :: foot_ok y ++ F)) ->
  (param_encode (pkey_of t y) = Error \/ ~ full -> post (0%Z, None) (foot_ok y ++ F)) ->
  (~ full -> (exists s, param_encode (pkey_of t y) = Ok s) -> post ((-1)%Z, None) (foot_ok y ++ F)) ->
  wp (h_param_encode malloc (evp_of t y)) post (foot_ok y ++ F).
Proof.
  intros t [y|] post F U1 U2 H1 H2 H3; unfold h_param_encode; cbn [evp_of option_map snd fst]; [|wps HA; apply H2; left; reflexivity].
  apply wp_bind. unfold h_asn1_from_key. apply wp_bind. apply (read_key_wp y _ F). unfold param_encode, pkey_of in *. cbn [option_map pk_key pk_type] in *.
  unfold asn1_from_key in *. cbn [val_k dk_ec] in *. destruct (ek_group (y_val y)) as [g|]; [|wps HA; apply H2; left; reflexivity].
  set (r := match g with Binary _ => _ | OtherField _ => _ end) in *. clearbody r.
  wps HA; [| |apply wp_undef; apply U1; exact OOM].
  - destruct r as [| |v]; [apply wp_undef; apply U2; reflexivity|wps HA; apply H2; left; reflexivity|]. cbn [bind] in *. wps HA.
    + apply (H1 _ p0 eq_refl).
    + apply H3; [exact OOM|]. eexists. reflexivity.
  - destruct r as [| |v]; [apply wp_undef; apply U2; reflexivity| |]; wps HA; apply H2; right; exact OOM.
Qed.

Lemma ok_length_pos : forall t y s, param_encode (pkey_of t y) = Ok s -> (Z.of_nat (length s) =? 0)%Z = false /\ (Z.of_nat (length s) <=? 0)%Z = false.
Proof.
  intros t y s E. assert (0 < length s)%nat as L; [|split; [apply Z.eqb_neq|apply Z.leb_gt]; lia].
  unfold param_encode in E. destruct (pk_key _) as [k|]; [|discriminate]. destruct (asn1_from_key _ _) as [| |v]; try discriminate. injection E as <-.
  unfold enc_params. cbn. lia.
Qed.
Lemma priv_encode_wp : forall t y (post : option keyinfo -> heap -> Prop) F,
  (~ full -> U) -> (param_encode (pkey_of t y) = Undefined -> U) ->
  (forall i, priv_encode (pkey_of t y) = Ok i -> forall h, Permutation h (foot_ok y ++ F) -> post (Some i) h) ->
  (forall i, ~ full -> priv_encode (pkey_of t y) = Ok i -> forall h, Permutation h (foot_ok y ++ F) -> post (Some (KEYINFO (ALGOR (al_nid (ki_alg i)) None) (ki_key i))) h) ->
  (forall L, Forall (fun c => snd c = OTemp) L -> priv_encode (pkey_of t y) = Error \/ ~ full -> forall h, Permutation h (L ++ foot_ok y ++ F) -> post None h) ->
  wp (h_priv_encode malloc (evp_of t y)) post (foot_ok y ++ F).
Proof.
  intros t y post F U1 U2 H1 H2 H3. unfold h_priv_encode. cbn [evp_of fst]. unfold priv_encode in H1, H2, H3. cbn [pkey_of pk_type] in H1, H2, H3.
  destruct (negb (is_dstu t)) eqn:T; [wps HA; apply (H3 []); [constructor|left; reflexivity|apply Permutation_refl]|].
  wps HA; [|apply (H3 []); [constructor|right; exact OOM|apply Permutation_refl]].
  eapply wp_perm; [apply perm_mid|]. apply (param_encode_wp t y); [exact U1|exact U2| | |].
  - intros s b E. destruct (ok_length_pos _ _ _ E) as [-> _]. rewrite E in H1, H2, H3. cbn [bind] in H1, H2, H3.
    destruct y as [[k e v sb]|]; [|discriminate E]. cbn [evp_of option_map snd]. unfold pkey_of in *. cbn [option_map pk_key dk_ec val_k y_val] in *.
    eapply wp_perm with (pre' := foot_k (KX k e v sb) ++ (b, OTemp) :: (p, OStr None) :: F).
    { cbn [foot_ok]. eapply perm_trans; [apply perm_mid|]. apply Permutation_refl. }
    apply wp_bind. apply (read_key_wp (KX k e v sb)). cbn [foot_ok val_k dk_ec y_val] in *. unfold foot_k in *. cbn [y_ptr y_ec y_val y_sbox app] in *.
    set (S := opt_cell OSbox sb) in *. clearbody S.
    eapply wp_perm with (pre' := (k, OKey (Ptr (Some e)) (Ptr (option_map fst sb))) :: (e, OEc v) :: (b, OTemp) :: (p, OStr None) :: S ++ F).
    { cbn. do 2 apply perm_skip. eapply perm_trans; [apply Permutation_sym; apply perm_mid|]. apply perm_skip. apply Permutation_sym; apply perm_mid. }
    destruct (ek_priv v) as [d|]; [|wps HA; apply (H3 [(b, OTemp)]); [now repeat constructor|left; reflexivity|cbn; perm]].
    assert ((num_bytes d =? 0) = (d =? 0)) as Ed by (destruct (N.eqb_spec d 0) as [E0|E0]; [apply N.eqb_eq; exact (proj2 (num_bytes_0 2 eq_refl d) E0)|apply N.eqb_neq; intros X; apply E0; exact (proj1 (num_bytes_0 2 eq_refl d) X)]).
    rewrite Ed. destruct (d =? 0); [wps HA; apply (H3 [(b, OTemp)]); [now repeat constructor|left; reflexivity|cbn; perm]|].
    wps HA; [| |apply (H3 [(b, OTemp)]); [now repeat constructor|right; exact OOM|cbn; perm]].
    + eapply H1; [reflexivity|]. perm.
    + apply (H3 []); [constructor|right; exact OOM|]. cbn. perm.
  - intros E. change (0 =? 0)%Z with true. cbv iota. eapply wp_perm; [apply Permutation_sym; apply perm_mid|]. wps HA. apply (H3 []); [constructor| |apply Permutation_refl].
    destruct E as [E|O]; [rewrite E; left; reflexivity|right; exact O].
  - intros O [s E]. change (-1 =? 0)%Z with false. cbv iota. rewrite E in H1, H2, H3. cbn [bind] in H1, H2, H3.
    destruct y as [[k e v sb]|]; [|discriminate E]. cbn [evp_of option_map snd]. unfold pkey_of in *. cbn [option_map pk_key dk_ec val_k y_val] in *.
    cbn [foot_ok]. apply wp_bind. apply (read_key_wp (KX k e v sb)). cbn [foot_ok val_k dk_ec y_val] in *. unfold foot_k in *. cbn [y_ptr y_ec y_val y_sbox app] in *.
    set (S := opt_cell OSbox sb) in *. clearbody S.
    eapply wp_perm with (pre' := (k, OKey (Ptr (Some e)) (Ptr (option_map fst sb))) :: (e, OEc v) :: (p, OStr None) :: S ++ F).
    { cbn. do 2 apply perm_skip. apply Permutation_sym; apply perm_mid. }
    destruct (ek_priv v) as [d|]; [|wps HA; apply (H3 []); [now repeat constructor|left; reflexivity|cbn; perm]].
    assert ((num_bytes d =? 0) = (d =? 0)) as Ed by (destruct (N.eqb_spec d 0) as [E0|E0]; [apply N.eqb_eq; exact (proj2 (num_bytes_0 2 eq_refl d) E0)|apply N.eqb_neq; intros X; apply E0; exact (proj1 (num_bytes_0 2 eq_refl d) X)]).
    rewrite Ed. destruct (d =? 0); [wps HA; apply (H3 []); [now repeat constructor|left; reflexivity|cbn; perm]|].
    wps HA; try (apply (H3 []); [now repeat constructor|right; exact O|cbn; perm]).
    exact (H2 _ O eq_refl _ ltac:(perm)).
Qed.
Lemma pub_encode_wp : forall t y (post : option keyinfo -> heap -> Prop) F,
  (~ full -> U) -> (param_encode (pkey_of t y) = Undefined -> U) ->
  (forall i, pub_encode (pkey_of t y) = Ok i -> forall h, Permutation h (foot_ok y ++ F) -> post (Some i) h) ->
  (pub_encode (pkey_of t y) = Error \/ ~ full -> forall h, Permutation h (foot_ok y ++ F) -> post None h) ->
  wp (h_pub_encode malloc (evp_of t y)) post (foot_ok y ++ F).
Proof.
  intros t y post F U1 U2 H1 H2. unfold h_pub_encode. cbn [evp_of fst]. unfold pub_encode in H1, H2. cbn [pkey_of pk_type] in H1, H2.
  destruct (negb (is_dstu t)) eqn:T; [wps HA; apply H2; [left; reflexivity|apply Permutation_refl]|].
  wps HA; [|apply H2; [right; exact OOM|apply Permutation_refl]].
  eapply wp_perm; [apply perm_mid|]. apply (param_encode_wp t y); [exact U1|exact U2| | |].
  - intros s b E. destruct (ok_length_pos _ _ _ E) as [_ ->]. rewrite E in H1, H2. cbn [bind] in H1, H2.
    destruct y as [[k e v sb]|]; [|discriminate E]. cbn [evp_of option_map snd]. unfold pkey_of in *. cbn [option_map pk_key dk_ec val_k y_val] in *. cbv zeta in H1, H2.
    eapply wp_perm with (pre' := (p, OStr None) :: foot_k (KX k e v sb) ++ (b, OTemp) :: F).
    { cbn [foot_ok]. eapply perm_trans; [apply perm_skip; apply Permutation_sym; apply perm_mid|]. eapply perm_trans; [apply perm_swap|]. apply perm_skip. apply perm_mid. }
    wps HA. cbn [fst]. eapply wp_perm; [apply perm_mid|].
    apply (read_key_wp (KX k e v sb)). cbn [foot_ok val_k dk_ec y_val] in *. unfold foot_k in *. cbn [y_ptr y_ec y_val y_sbox app] in *.
    set (S := opt_cell OSbox sb) in *. clearbody S.
    eapply wp_perm with (pre' := (k, OKey (Ptr (Some e)) (Ptr (option_map fst sb))) :: (e, OEc v) :: (p, OStr (Some b)) :: (b, OTemp) :: S ++ F).
    { cbn. do 2 apply perm_skip. eapply perm_trans; [apply Permutation_sym; apply perm_mid|]. apply perm_skip. apply Permutation_sym; apply perm_mid. }
    destruct (ek_group v) as [[g|]|]; [|wps HA; apply H2; [left; reflexivity|perm] ..].
    destruct (ek_pub v) as [Q|]; [|wps HA; apply H2; [left; reflexivity|perm]].
    destruct (field_size (g_curve g) =? 0); [wps HA; apply H2; [left; reflexivity|perm]|].
    wps HA; try (apply H2; [right; assumption|perm]).
    destruct (compress (g_curve g) Q (field_size (g_curve g))) as [out|]; [|wps HA; apply H2; [left; reflexivity|perm]].
    wps HA; try (apply H2; [right; assumption|perm]).
    eapply H1; [reflexivity|]. perm.
  - intros E. eapply wp_perm; [apply Permutation_sym; apply perm_mid|]. wps HA. change (0 <=? 0)%Z with true. cbv iota. wps HA. apply H2; [|apply Permutation_refl].
    destruct E as [E|O]; [rewrite E; left; reflexivity|right; exact O].
  - intros O _. eapply wp_perm; [apply Permutation_sym; apply perm_mid|]. wps HA. change (-1 <=? 0)%Z with true. cbv iota. wps HA. apply H2; [right; exact O|apply Permutation_refl].
Qed.

(** Signing and verification. *)
Lemma sign_wp : forall t y fuel tbs src (post : option (list N) -> heap -> Prop) F,
  (forall out, pkey_sign fuel (Some (pkey_of t y)) true (pkey_size (pkey_of t y)) tbs src = Done (true, N.of_nat (length out), out) ->
     forall h, Permutation h (foot_ok y ++ F) -> post (Some out) h) ->
  ((exists a b, pkey_sign fuel (Some (pkey_of t y)) true (pkey_size (pkey_of t y)) tbs src = Done (false, a, b)) \/ ~ full -> forall h, Permutation h (foot_ok y ++ F) -> post None h) ->
  wp (h_pkey_sign malloc (evp_of t y) fuel tbs src) post (foot_ok y ++ F).
Proof.
  intros t [y|] fuel tbs src post F H1 H2; unfold h_pkey_sign; cbn [evp_of option_map snd fst];
    [|wps HA; apply H2; [left; do 2 eexists; reflexivity|apply Permutation_refl]].
  cbn [foot_ok] in *. apply wp_bind. apply read_key_wp. unfold pkey_sign, pkey_of in H1, H2. cbn [option_map pk_key pk_type pkey_group val_k dk_ec] in *.
  cbn [val_k dk_ec]. unfold pkey_group in H1, H2. cbn [pk_key val_k dk_ec] in H1, H2.
  destruct (ek_group (y_val y)) as [g|]; [|wps HA; apply H2; [left; do 2 eexists; reflexivity|apply Permutation_refl]].
  destruct (get_order g) as [n|]; [|wps HA; apply H2; try (left; do 2 eexists; reflexivity); try (right; assumption); apply Permutation_refl].
  set (sz := pkey_size _) in H1, H2. clearbody sz. rewrite N.ltb_irrefl in H1, H2. cbn [andb] in H1, H2.
  wps HA; try (apply H2; [right; assumption|apply Permutation_refl]).
  destruct (do_sign fuel (y_val y) tbs src) as [| |sg]; [apply wp_loop|wps HA; apply H2; [left; do 2 eexists; reflexivity|apply Permutation_refl]|].
  wps HA. apply H1; [reflexivity|apply Permutation_refl].
Qed.
Lemma verify_wp : forall t y sig tbs (post : bool -> heap -> Prop) F,
  (forall r, r = pkey_verify d2o (Some (pkey_of t y)) sig tbs \/ ~ full /\ (r = false \/ r = pkey_verify (fun _ => None) (Some (pkey_of t y)) sig tbs) ->
     forall h, Permutation h (foot_ok y ++ F) -> post r h) ->
  wp (h_pkey_verify malloc d2o (evp_of t y) sig tbs) post (foot_ok y ++ F).
Proof.
  intros t [y|] sig tbs post F H; unfold h_pkey_verify; cbn [evp_of option_map snd fst];
    [|wps HA; apply H; [left; reflexivity|apply Permutation_refl]].
  cbn [foot_ok] in *. apply wp_bind. apply read_key_wp. unfold pkey_verify, pkey_of in H. cbn [option_map pk_key pk_type pkey_group val_k dk_ec] in *.
  cbn [val_k dk_ec]. unfold pkey_group in H. cbn [pk_key val_k dk_ec] in H.
  destruct (ek_group (y_val y)) as [g|]; [|wps HA; apply H; [left; reflexivity|apply Permutation_refl]].
  destruct (get_order g) as [n|] eqn:En; [|wps HA; apply H; solve [left; reflexivity | right; auto | apply Permutation_refl]].
  assert (0 < num_bytes n) as Np.
  { unfold get_order in En. cbv zeta in En. generalize dependent (match g with Binary g => g_order g | OtherField n => n end). intros x En.
    destruct (N.eqb_spec x 0) as [E0|E0]; [discriminate|]. injection En as ->. destruct (N.eq_dec (num_bytes n) 0) as [X|X]; [|lia].
    exfalso. apply E0. exact (proj1 (num_bytes_0 2 eq_refl n) X). }
  cbv zeta in H. change (t =? NID_dstu4145le)%Z with (is_le t) in H.
  wps HA; [|apply H; [right; auto|apply Permutation_refl]].
  assert (forall s rest (P : bool -> Prop), (forall r, r = (if N.testbit (N.of_nat (length s)) 0 then false else if N.of_nat (length s) <? 2 * num_bytes n then false
                else if is_le t then do_verify (y_val y) tbs (rev s) else do_verify (y_val y) tbs s) \/ ~ full /\ r = false -> P r) ->
     wp (if N.testbit (N.of_nat (length s)) 0 then ret false
                          else if N.of_nat (length s) <? 2 * num_bytes n then ret false
                          else if is_le t then
                            sig_be <- match s with [] => ret None | _ => new malloc OTemp end ;;
                            match sig_be with
                            | None => ret false
                            | Some b => ok <- try malloc ;; free b ;;; ret (ok && do_verify (y_val y) tbs (rev s))
                            end
                          else ok <- try malloc ;; ret (ok && do_verify (y_val y) tbs s)) (fun r h => h = rest /\ P r) rest) as V.
  { intros s rest P HP. destruct (N.testbit (N.of_nat (length s)) 0); [wps HA; split; [reflexivity|apply HP; left; reflexivity]|].
    destruct (N.ltb_spec (N.of_nat (length s)) (2 * num_bytes n)) as [Lt|Ge]; [wps HA; split; [reflexivity|apply HP; left; reflexivity]|].
    destruct (is_le t).
    - destruct s as [|b bs]; [cbn in Ge; lia|]. wps HA; (split; [reflexivity|]); apply HP; first [left; reflexivity | right; split; [assumption|reflexivity]].
    - wps HA; (split; [reflexivity|]); apply HP; first [left; reflexivity | right; split; [assumption|reflexivity]]. }
  destruct (d2o sig) as [sg|].
  - wps HA.
    + eapply wp_mono; [apply (V sg _ (fun r => forall h, Permutation h (foot_k y ++ F) -> post r h))|].
      * intros r Hr h Ph. apply H; [|exact Ph]. destruct Hr as [Hr|[O Hr]]; [left; exact Hr|right; auto].
      * intros r h [-> Hp]. wps HA. apply Hp. apply Permutation_refl.
    + eapply wp_mono; [apply (V sig _ (fun r => forall h, Permutation h (foot_k y ++ F) -> post r h))|].
      * intros r Hr h Ph. apply H; [|exact Ph]. right. split; [exact OOM|]. destruct Hr as [Hr|[_ Hr]]; auto.
      * intros r h [-> Hp]. wps HA. apply Hp. apply Permutation_refl.
  - wps HA. eapply wp_mono; [apply (V sig _ (fun r => forall h, Permutation h (foot_k y ++ F) -> post r h))|].
      * intros r Hr h Ph. apply H; [|exact Ph]. destruct Hr as [Hr|[O Hr]]; [left; exact Hr|right; auto].
      * intros r h [-> Hp]. wps HA. apply Hp. apply Permutation_refl.
Qed.
End Calls.
