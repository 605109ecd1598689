(** Proofs for Model_Wipe. *)
From Coq Require Import ZArith Lia.
From Verif Require Import Base Lib Model_Gost89 Model_Params Model_KeyStore Model_Utils Model_Utf16 Model_Jks Model_Key6 Model_Wipe
  Spec_Md Spec_Keylib Spec_Jks Spec_Key6 Proof_Keylib Proof_Pkcs12 Proof_Jks Proof_Key6.
From Verif Require Model_Ec Model_Sign Model_Ameth Model_Pmeth Model_Key.

Section J.
Context {spec grp : Type} (e : jks_env spec grp) (He : env_ok e).
Lemma fkp_leaves data pwd16 d : kp_decrypt e data pwd16 = Some (Some d) -> from_key_protector_leaves e data pwd16 = [d].
Proof.
  unfold kp_decrypt, from_key_protector_leaves. cbv zeta. destruct (N.of_nat (length data) <? 40); [discriminate|].
  destruct (kp_rounds _ _ _ _ _) as [x|]; [|discriminate]. destruct (cmp_bytes _ _); [|discriminate]. intros [= ->]. reflexivity.
Qed.
Lemma dk_leaves blob keyPass key16 salt plain : password16 e keyPass key16 ->
  je_sig e blob = Some (keyProtectorOID, protect (je_sha1 e) key16 salt plain) -> length salt = 20%nat ->
  decrypt_key_leaves e blob keyPass = [plain; key16].
Proof.
  intros Hp Hs Hl. unfold decrypt_key_leaves. rewrite (to_utf16_ok e He _ _ Hp), Hs, oid_eqb_refl.
  rewrite (fkp_leaves _ _ plain); [reflexivity|]. apply kp_decrypt_protect; [apply He|exact Hl].
Qed.
Lemma entry_leaves pre post alias stamp blob chain keyPass : entry_fits (KeyEntry alias stamp blob chain) ->
  parse_entry_leaves e (pre ++ enc_entry (KeyEntry alias stamp blob chain) ++ post) (N.of_nat (length pre)) keyPass = decrypt_key_leaves e blob keyPass.
Proof.
  intros (Fa & Fs & Fb & Fn & Fc). cbn [enc_entry]. rewrite <- !app_assoc. unfold parse_entry_leaves.
  erewrite (read32_at _ _ pre 1); [|reflexivity|reflexivity|reflexivity]. change (1 =? 1) with true. cbv iota. unfold parse_key_leaves.
  erewrite (read16_at _ _ (pre ++ be_bytes 4 1) (N.of_nat (length alias))); [|exact Fa|rewrite <- !app_assoc; reflexivity|lens].
  erewrite (read32_at _ _ (pre ++ be_bytes 4 1 ++ be_bytes 2 (N.of_nat (length alias)) ++ alias ++ stamp) (N.of_nat (length blob))); [|exact Fb|rewrite <- !app_assoc; reflexivity|lens].
  erewrite (slice_at _ _ _ (pre ++ be_bytes 4 1 ++ be_bytes 2 (N.of_nat (length alias)) ++ alias ++ stamp ++ be_bytes 4 (N.of_nat (length blob))) blob); [|rewrite <- !app_assoc; reflexivity|lens|reflexivity].
  reflexivity.
Qed.
Lemma entries_leave keyPass a b : forall l data off pre post k ks cs k' h lk lc alias stamp blob chain,
  data = pre ++ concat (map enc_entry l) ++ post -> off = N.of_nat (length pre) -> Forall entry_fits l ->
  entries_read e keyPass k l ks cs k' -> holds h a lk lc -> In (KeyEntry alias stamp blob chain) l -> In b (decrypt_key_leaves e blob keyPass) ->
  In b (parse_entries_leave e (length l) data off keyPass a (h, k)).
Proof.
  induction l as [|x l IH]; intros data off pre post k ks cs k' h lk lc alias stamp blob chain Hd Ho Hf Hr Hh Hin Hb; [destruct Hin|].
  inversion Hr as [|? ? ? ks1 cs1 k1 ks2 cs2 ? Hx Hl]; subst. inversion Hf as [|? ? Fx Fl]; subst.
  cbn [length parse_entries_leave map concat]. rewrite <- app_assoc.
  apply in_or_app. destruct Hin as [-> | Hin].
  - left. rewrite entry_leaves by exact Fx. exact Hb.
  - right.
    destruct (parse_entry_ok e He _ _ pre (concat (map enc_entry l) ++ post) x keyPass k ks1 cs1 k1 h a lk lc eq_refl eq_refl Fx Hx Hh) as [h1 [E1 [H1 R1]]].
    rewrite E1. eapply (IH _ _ (pre ++ enc_entry x) post k1 ks2 cs2 k' h1); eauto; [rewrite <- !app_assoc; reflexivity|rewrite app_length; lia].
Qed.
Lemma jks_leaves data storagePass keyPass h k ks h' k' ks' : bytes data ->
  parseJKS e data storagePass keyPass (h, k) ks = Some ((h', k'), true, ks') ->
  exists magic l post store16, data = enc_store magic l ++ digest_of e store16 (enc_store magic l) ++ post /\ password16 e storagePass store16 /\
    let left := parseJKS_leaves e data storagePass keyPass (h, k) in
    In store16 left /\
    forall alias stamp blob chain key16 salt plain, In (KeyEntry alias stamp blob chain) l -> password16 e keyPass key16 ->
      je_sig e blob = Some (keyProtectorOID, protect (je_sha1 e) key16 salt plain) -> length salt = 20%nat -> In key16 left /\ In plain left.
Proof.
  intros Hb H. destruct (parse_jks_inv e He _ _ _ _ _ _ _ _ Hb H) as [magic [l [post [store16 [ks1 [cs [k1 [-> [Hm [Hl [Hf [Hp Hr]]]]]]]]]]]].
  exists magic, l, post, store16. split; [reflexivity|]. split; [exact Hp|]. cbv zeta. clear H Hb.
  set (data := enc_store magic l ++ _). set (a := je_malloc e h).
  assert (Lm : length magic = 4%nat) by (destruct Hm as [-> | ->]; reflexivity).
  destruct (header_eqs magic l (digest_of e store16 (enc_store magic l) ++ post) Lm Hl) as [E1 [E2 E3]]. fold data in E1, E2, E3.
  unfold parseJKS_leaves. rewrite E1, E2, E3.
  replace (negb (oid_eqb magic [254; 237; 254; 237]) && negb (oid_eqb magic [206; 206; 206; 206])) with false
    by (destruct Hm as [-> | ->]; reflexivity). cbv iota. change (negb (oid_eqb [0; 0; 0; 2] [0; 0; 0; 2])) with false. cbv iota.
  rewrite (to_utf16_ok e He _ _ Hp). fold a. rewrite Nat2N.id. destruct (new_filled h a 0 0) as [Nk Nc].
  assert (Ed : data = (magic ++ [0; 0; 0; 2] ++ be_bytes 4 (N.of_nat (length l))) ++ concat (map enc_entry l) ++ digest_of e store16 (enc_store magic l) ++ post)
    by (unfold data, enc_store at 1; rewrite <- !app_assoc; reflexivity).
  assert (Eo : 12 = N.of_nat (length (magic ++ [0; 0; 0; 2] ++ be_bytes 4 (N.of_nat (length l))))) by (rewrite !app_length, be_bytes_length, Lm; reflexivity).
  destruct (parse_entries_ok e He keyPass a l data 12 _ _ k ks1 cs k1 (ks_new h a 0 0) [] [] Ed Eo Hf Hr (conj Nk Nc)) as [h1 [E4 [H1 R1]]].
  rewrite E4. split; [apply in_or_app; right; left; reflexivity|].
  intros alias stamp blob chain key16 salt plain Hin Hk Hs Hsl. pose proof (dk_leaves _ _ _ _ _ Hk Hs Hsl) as D.
  split; apply in_or_app; left; apply (entries_leave keyPass a _ l data 12 _ _ k ks1 cs k1 (ks_new h a 0 0) [] [] alias stamp blob chain Ed Eo Hf Hr (conj Nk Nc) Hin); rewrite D; cbn; auto.
Qed.
End J.

Lemma key6_leaves r mac data pad password : bytes password -> hashable (length password) ->
  parseKey6_leaves r (Some (key6_store mac data pad)) password = [key6_key password].
Proof.
  intros Hb Hh. unfold parseKey6_leaves, key6_store. cbn [is_header is_data ih_type ih_params]. rewrite oid_eqb_refl. cbn [negb].
  unfold decryptKey6_leaves. rewrite pkdf_ok by assumption. reflexivity.
Qed.

Lemma priv_leaves d2i solve p8 pk : Model_Ameth.priv_decode d2i solve p8 = Some pk ->
  exists key d b, Model_Pmeth.pk_key pk = Some key /\ Model_Sign.ek_priv (Model_Pmeth.dk_ec key) = Some d /\
    In b (priv_decode_leaves d2i solve p8) /\ be_val b = d.
Proof.
  unfold Model_Ameth.priv_decode, priv_decode_leaves. cbv zeta. destruct (negb (Model_Ameth.is_dstu _)); [discriminate|].
  destruct (Model_Ameth.al_params _) as [prm|]; [|discriminate]. destruct (Model_Ameth.param_decode _ _ _ _) as [key|]; [|discriminate].
  destruct (Model_Ameth.ki_key p8) as [|b0 t] eqn:Ek; [discriminate|].
  destruct (Model_Sign.add_public_key _) as [ec|] eqn:Ea; [|discriminate]. intros [= <-].
  eexists. eexists. exists (rev (b0 :: t)). split; [reflexivity|]. cbn [Model_Pmeth.dk_ec].
  split; [|split; [left; reflexivity|reflexivity]].
  unfold Model_Sign.add_public_key in Ea.
  cbn [Model_Sign.ek_group Model_Sign.ek_priv] in Ea. destruct (Model_Sign.ek_group _) as [[g|]|]; try discriminate. injection Ea as <-. reflexivity.
Qed.
Lemma key6_left r mac data pad password : bytes password -> hashable (length password) ->
  In (key6_key password) (parseKey6_leaves r (Some (key6_store mac data pad)) password).
Proof. intros Hb Hh. rewrite key6_leaves by assumption. generalize (key6_key password). intros k. left. reflexivity. Qed.

Lemma destroy_wipes c rnd rnd' k k' : gost_destroy (gost_key rnd c k) = gost_destroy (gost_key rnd' c k') /\ key (gost_destroy c) = zeros 8 /\ mask (gost_destroy c) = zeros 8.
Proof. repeat split. Qed.
