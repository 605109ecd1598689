From Verif Require Import Lib Model_KeyStore Spec_KeyStore Proof_KeyStore Model_Utils Model_Utf16 Model_Jks Spec_Keylib Spec_Pkcs12 Proof_Pkcs12 Proof_Keylib Spec_Jks.

(** ** Key protection *)
Section Kp.
Context {spec grp : Type} (e : jks_env spec grp) (Hsha : forall x, length (je_sha1 e x) = 20%nat).
Lemma kp_inner_spec : forall digest rem, rem <> [] -> kp_inner digest rem = Some (xorl rem digest, skipn (length digest) rem).
Proof.
  induction digest as [|d ds IH]; intros rem Hne; [destruct rem; reflexivity|]. destruct rem as [|c rem]; [contradiction|].
  cbn [kp_inner xorl length skipn]. destruct rem as [|c' rem]; [destruct ds; reflexivity|]. rewrite IH by discriminate. reflexivity.
Qed.
Lemma xorl_short a b c : (length a <= length b)%nat -> xorl a (b ++ c) = xorl a b.
Proof. revert b. induction a as [|x a IH]; intros [|y b] H; cbn in *; try reflexivity; [lia|]. rewrite IH by lia. reflexivity. Qed.
Lemma xorl_split a b c : (length b <= length a)%nat -> xorl a (b ++ c) = xorl a b ++ xorl (skipn (length b) a) c.
Proof. revert b. induction a as [|x a IH]; intros [|y b] H; cbn in *; try reflexivity. rewrite IH by lia. reflexivity. Qed.
Lemma key_blocks_length pwd : forall n d, length (concat (key_blocks (je_sha1 e) pwd d n)) = (20 * n)%nat.
Proof. induction n as [|n IH]; intros d; [reflexivity|]. cbn [key_blocks concat]. cbv zeta. rewrite app_length, Hsha, IH. lia. Qed.
Lemma kp_rounds_spec pwd : forall r d rem n, (length rem <= 20 * r < length rem + 20)%nat -> (length rem <= 20 * n)%nat ->
  kp_rounds e r pwd d rem = Some (xorl rem (concat (key_blocks (je_sha1 e) pwd d n))).
Proof.
  induction r as [|r IH]; intros d rem n Hr Hn.
  - rewrite (list_len0 rem) by lia. reflexivity.
  - cbn [kp_rounds]. unfold two_hash. set (d' := je_sha1 e (pwd ++ d)). assert (Hd : length d' = 20%nat) by apply Hsha.
    destruct rem as [|c rem0] eqn:Er; [cbn [length] in Hr; lia|]. rewrite <- Er in *. assert (Hne : rem <> []) by (rewrite Er; discriminate). clear Er rem0.
    rewrite kp_inner_spec by exact Hne. rewrite Hd. destruct n as [|n]; [destruct rem; [contradiction|cbn [length] in Hn; lia]|].
    cbn [key_blocks concat]. cbv zeta. fold d'.
    rewrite (IH d' (skipn 20 rem) n) by (rewrite skipn_length; lia).
    destruct (Nat.le_gt_cases (length rem) 20) as [Hl|Hl].
    + rewrite xorl_short by lia. rewrite skipn_all2 by lia. cbn [xorl]. rewrite app_nil_r. reflexivity.
    + rewrite xorl_split by lia. rewrite Hd. reflexivity.
Qed.
Lemma crypt_eq pwd d text n : (length text <= 20 * n)%nat -> crypt (je_sha1 e) pwd d text = xorl text (concat (key_blocks (je_sha1 e) pwd d n)).
Proof.
  intros Hn. unfold crypt. rewrite xorl_firstn_r by lia.
  pose proof (kp_rounds_spec pwd ((length text + 19) / 20) d text n) as H1. pose proof (kp_rounds_spec pwd ((length text + 19) / 20) d text (length text)) as H2.
  assert (Hr : (length text <= 20 * ((length text + 19) / 20) < length text + 20)%nat) by (pose proof (Nat.div_mod (length text + 19) 20); pose proof (Nat.mod_upper_bound (length text + 19) 20); lia).
  rewrite H1 in H2 by (exact Hr || exact Hn). injection (H2 Hr ltac:(lia)) as ->. reflexivity.
Qed.
Lemma crypt_length pwd d text : length (crypt (je_sha1 e) pwd d text) = length text.
Proof. unfold crypt. rewrite xorl_length, firstn_length, key_blocks_length. lia. Qed.
Lemma crypt_twice pwd d text : crypt (je_sha1 e) pwd d (crypt (je_sha1 e) pwd d text) = text.
Proof.
  rewrite (crypt_eq pwd d (crypt (je_sha1 e) pwd d text) (length text)) by (rewrite crypt_length; lia).
  rewrite (crypt_eq pwd d text (length text)) by lia. apply xorl_cancel. rewrite key_blocks_length. lia.
Qed.
Lemma cmp_bytes_spec : forall a b, length a = length b -> cmp_bytes a b = true <-> a = b.
Proof.
  induction a as [|x a IH]; intros [|y b] H; cbn in *; try discriminate; [split; reflexivity|].
  destruct (N.eqb_spec x y) as [->|Hne]; [rewrite IH by lia; split; [intros ->; reflexivity|intros [= ->]; reflexivity]|].
  split; [discriminate|intros [= ? _]; contradiction].
Qed.
Lemma kp_decrypt_split salt enc check pwd : length salt = 20%nat -> length check = 20%nat ->
  kp_decrypt e (salt ++ enc ++ check) pwd =
  Some (if list_eq_dec N.eq_dec (je_sha1 e (pwd ++ crypt (je_sha1 e) pwd salt enc)) check then Some (crypt (je_sha1 e) pwd salt enc) else None).
Proof.
  intros Hs Hc. unfold kp_decrypt. cbv zeta. rewrite !app_length, Hs, Hc.
  replace (N.of_nat (20 + (length enc + 20)) <? 40) with false by lia.
  replace (N.of_nat (20 + (length enc + 20)) - 20 - 20) with (N.of_nat (length enc)) by lia.
  replace (N.to_nat (20 + N.of_nat (length enc))) with (20 + length enc)%nat by lia. rewrite Nat2N.id.
  rewrite <- Hs at 1. rewrite firstn_app, Nat.sub_diag, firstn_all, firstn_O, app_nil_r.
  assert (E1 : skipn 20 (salt ++ enc ++ check) = enc ++ check) by (rewrite <- Hs, skipn_app, skipn_all, Nat.sub_diag; reflexivity).
  rewrite skipn_add, E1, skipn_app, skipn_all, Nat.sub_diag. cbn [app skipn].
  rewrite firstn_app, Nat.sub_diag, firstn_all, firstn_O, app_nil_r.
  set (r := if 0 <? N.of_nat (length enc) mod 20 then 1 + N.of_nat (length enc) / 20 else N.of_nat (length enc) / 20).
  assert (Hr : (length enc <= 20 * N.to_nat r < length enc + 20)%nat).
  { unfold r. destruct (N.ltb_spec 0 (N.of_nat (length enc) mod 20)); lia. }
  rewrite (kp_rounds_spec pwd (N.to_nat r) salt enc (length enc)) by (exact Hr || lia). rewrite <- crypt_eq by lia. unfold two_hash.
  pose proof (cmp_bytes_spec (je_sha1 e (pwd ++ crypt (je_sha1 e) pwd salt enc)) check) as Hcmp. rewrite Hsha, Hc in Hcmp. specialize (Hcmp eq_refl).
  destruct (list_eq_dec N.eq_dec _ check) as [E|E]; destruct (cmp_bytes _ check); try reflexivity.
  - apply Hcmp in E. discriminate.
  - exfalso. apply E. apply Hcmp. reflexivity.
Qed.
Lemma kp_decrypt_protect salt plain pwd : length salt = 20%nat -> kp_decrypt e (protect (je_sha1 e) pwd salt plain) pwd = Some (Some plain).
Proof.
  intros Hs. unfold protect. rewrite kp_decrypt_split by (assumption || apply Hsha). rewrite crypt_twice.
  destruct (list_eq_dec N.eq_dec _ _) as [_|H]; [reflexivity|contradiction H; reflexivity].
Qed.
Lemma split_blob (data : list N) : (40 <= length data)%nat -> exists salt enc check : list N, data = salt ++ enc ++ check /\ length salt = 20%nat /\ length check = 20%nat.
Proof.
  intros H. exists (firstn 20 data), (firstn (length data - 40) (skipn 20 data)), (skipn (length data - 40) (skipn 20 data)).
  rewrite !firstn_skipn. split; [reflexivity|]. rewrite firstn_length, skipn_length, skipn_length. lia.
Qed.
Lemma kp_decrypt_inv data pwd plain : kp_decrypt e data pwd = Some (Some plain) ->
  exists salt, length salt = 20%nat /\ data = protect (je_sha1 e) pwd salt plain.
Proof.
  intros H. destruct (Nat.le_gt_cases 40 (length data)) as [Hl|Hl].
  - destruct (split_blob data Hl) as [salt [enc [check [-> [Hs Hc]]]]]. rewrite kp_decrypt_split in H by assumption.
    destruct (list_eq_dec N.eq_dec _ check) as [E|E]; [|discriminate]. injection H as <-. exists salt. split; [exact Hs|].
    unfold protect. rewrite crypt_twice, E. reflexivity.
  - unfold kp_decrypt in H. replace (N.of_nat (length data) <? 40) with true in H by lia. discriminate.
Qed.
End Kp.

(** ** Appending a temporary store *)
Lemma free_loop_null : forall n i a freed, (forall j, (j < i + n)%nat -> nth_error a j = Some Null) -> free_loop n i a freed = Some freed.
Proof.
  induction n as [|n IH]; intros i a freed H; [reflexivity|]. cbn [free_loop]. rewrite H by lia. cbn [free_cell]. apply IH. intros j Hj. apply H. lia.
Qed.
Lemma free_half_null x n freed : hrep x (repeat None n) -> free_half x freed = Some freed.
Proof.
  intros [Hn Ha]. unfold free_half. rewrite repeat_length in Hn. destruct Ha as [->|[-> _]]; [|reflexivity]. rewrite cells_none, Hn.
  apply free_loop_null. intros j Hj. cbn in Hj. apply nth_error_repeat. exact Hj.
Qed.
Lemma ks_append_two h to from kt ct kf cf : to <> from ->
  filled h to Keys kt 0 -> filled h to Certs ct 0 -> filled h from Keys kf 0 -> filled h from Certs cf 0 ->
  exists h', ks_append h to from = Some h' /\ filled h' to Keys (kt ++ kf) 0 /\ filled h' to Certs (ct ++ cf) 0 /\
    (exists x y, hside h' from Keys = Some x /\ hside h' from Certs = Some y /\ hrep x (repeat None (length kf)) /\ hrep y (repeat None (length cf))) /\
    only h h' (fun j _ => j = to \/ j = from) /\ same_freed h h'.
Proof.
  intros Hne [x1 [E1 R1]] [x2 [E2 R2]] [x3 [E3 R3]] [x4 [E4 R4]]. cbn [repeat] in *. rewrite app_nil_r in *.
  destruct (append_side_two h Keys to from x1 x3 _ _ Hne E1 E3 R1 R3) as [h1 [y1 [y3 [A1 [F1 [F3 [S1 [S3 [O1 Z1]]]]]]]]].
  assert (E2' : hside h1 to Certs = Some x2) by (rewrite O1; [exact E2|intros [_ ?]; discriminate]).
  assert (E4' : hside h1 from Certs = Some x4) by (rewrite O1; [exact E4|intros [_ ?]; discriminate]).
  destruct (append_side_two h1 Certs to from x2 x4 _ _ Hne E2' E4' R2 R4) as [h2 [y2 [y4 [A2 [F2 [F4 [S2 [S4 [O2 Z2]]]]]]]]].
  assert (F1' : hside h2 to Keys = Some y1) by (rewrite O2; [exact F1|intros [_ ?]; discriminate]).
  assert (F3' : hside h2 from Keys = Some y3) by (rewrite O2; [exact F3|intros [_ ?]; discriminate]).
  exists h2. split; [unfold ks_append; rewrite A1; exact A2|].
  split; [exists y1; split; [exact F1'|cbn; rewrite app_nil_r, map_app; exact S1]|].
  split; [exists y2; split; [exact F2|cbn; rewrite app_nil_r, map_app; exact S2]|].
  split; [exists y3, y4; rewrite map_length in S3, S4; auto|].
  split; [|eapply same_freed_trans; eassumption].
  eapply only_trans; (eapply only_weak; [|eassumption]); cbn; tauto.
Qed.
Lemma ks_free_null h a x y n m : hside h a Keys = Some x -> hside h a Certs = Some y -> hrep x (repeat None n) -> hrep y (repeat None m) ->
  ks_free h (Some a) = Some (put_store h a None).
Proof.
  intros Ex Ey Rx Ry. destruct (hside_some _ _ _ _ Ex) as [s [Es Gx]]. unfold hside in Ey. rewrite Es in Ey. injection Ey as Gy.
  unfold ks_free. rewrite Es. cbn in Gx, Gy. rewrite Gx, Gy, (free_half_null x n _ Rx), (free_half_null y m _ Ry). reflexivity.
Qed.
(** The store as the caller sees it. *)
Definition holds (h : heap) (a : nat) (lk lc : list nat) : Prop := filled h a Keys lk 0 /\ filled h a Certs lc 0.
(** Nothing else changed. *)
Definition rest (h h' : heap) (a : nat) : Prop := (forall j, j <> a -> hp_store h' j = hp_store h j) /\ same_freed h h'.
Lemma rest_refl h a : rest h h a.
Proof. split; [reflexivity|split; reflexivity]. Qed.
Lemma rest_trans h1 h2 h3 a : rest h1 h2 a -> rest h2 h3 a -> rest h1 h3 a.
Proof. intros [A1 B1] [A2 B2]. split; [intros j Hj; rewrite A2, A1; auto|eapply same_freed_trans; eassumption]. Qed.

Lemma attach h0 h a t lk lc mk mc : a <> t -> hp_store h0 t = None -> rest h0 h t -> holds h0 a lk lc -> holds h t mk mc ->
  exists h1 h2, ks_append h a t = Some h1 /\ ks_free h1 (Some t) = Some h2 /\ holds h2 a (lk ++ mk) (lc ++ mc) /\ rest h0 h2 a.
Proof.
  intros Hne Ht [Ro Rf] [Fk Fc] [Gk Gc].
  assert (Hsame : forall d, hside h a d = hside h0 a d) by (intros d; unfold hside; rewrite Ro by exact Hne; reflexivity).
  assert (Fk' : filled h a Keys lk 0) by (destruct Fk as [x [E R]]; exists x; rewrite Hsame; auto).
  assert (Fc' : filled h a Certs lc 0) by (destruct Fc as [x [E R]]; exists x; rewrite Hsame; auto).
  destruct (ks_append_two h a t lk lc mk mc Hne Fk' Fc' Gk Gc) as [h1 [E1 [K1 [C1 [[x [y [Ex [Ey [Rx Ry]]]]] [O1 Z1]]]]]].
  exists h1, (put_store h1 t None). split; [exact E1|]. split; [eapply ks_free_null; eassumption|].
  assert (Hput : forall j, hp_store (put_store h1 t None) j = if Nat.eqb j t then None else hp_store h1 j).
  { intros j. unfold hp_store, put_store. cbn [hp_stores]. apply hp_store_sset. }
  assert (Hside : forall d, hside (put_store h1 t None) a d = hside h1 a d).
  { intros d. unfold hside. rewrite Hput. destruct (Nat.eqb_spec a t); [contradiction|reflexivity]. }
  split; [split; [destruct K1 as [z [Ez Rz]]|destruct C1 as [z [Ez Rz]]]; exists z; rewrite Hside; auto|].
  split.
  - intros j Hj. rewrite Hput. destruct (Nat.eqb_spec j t) as [->|Hjt]; [symmetry; exact Ht|].
    rewrite <- Ro by exact Hjt. pose proof (O1 j Keys ltac:(intuition)) as P1. pose proof (O1 j Certs ltac:(intuition)) as P2. unfold hside in P1, P2.
    destruct (hp_store h1 j) as [[k c]|], (hp_store h j) as [[k' c']|]; cbn in *; congruence.
  - eapply same_freed_trans; [exact Rf|]. exact Z1.
Qed.
Lemma holds_ne h a t lk lc : holds h a lk lc -> hp_store h t = None -> a <> t.
Proof. intros [[x [E _]] _] Hn ->. unfold hside in E. rewrite Hn in E. discriminate. Qed.

(** ** Reading bytes *)
Lemma slice_at data off len pre x post : data = pre ++ x ++ post -> off = N.of_nat (length pre) -> len = N.of_nat (length x) -> slice data off len = Some x.
Proof.
  intros -> -> ->. unfold slice. rewrite !app_length. replace (N.of_nat (length pre) + N.of_nat (length x) <=? N.of_nat (length pre + (length x + length post))) with true by lia.
  rewrite !Nat2N.id, skipn_app, skipn_all, Nat.sub_diag. cbn [app skipn]. rewrite firstn_app, Nat.sub_diag, firstn_all, firstn_O, app_nil_r. reflexivity.
Qed.
Lemma slice_inv pre tail off k len x : slice (pre ++ tail) off len = Some x -> off = N.of_nat (length pre) + k ->
  exists a b, tail = a ++ x ++ b /\ N.of_nat (length a) = k /\ N.of_nat (length x) = len.
Proof.
  intros H ->. unfold slice in H. destruct (N.leb_spec (N.of_nat (length pre) + k + len) (N.of_nat (length (pre ++ tail)))) as [Hle|]; [|discriminate].
  injection H as <-. rewrite app_length in Hle.
  replace (N.to_nat (N.of_nat (length pre) + k)) with (length pre + N.to_nat k)%nat by lia.
  rewrite skipn_add, skipn_app, skipn_all, Nat.sub_diag. cbn [app skipn].
  exists (firstn (N.to_nat k) tail), (skipn (N.to_nat len) (skipn (N.to_nat k) tail)). rewrite !firstn_skipn. split; [reflexivity|].
  rewrite !firstn_length, skipn_length. lia.
Qed.
Lemma read16_at data off pre n post : n < 2 ^ 16 -> data = pre ++ be_bytes 2 n ++ post -> off = N.of_nat (length pre) -> read16 data off = Some n.
Proof. intros Hn E1 E2. unfold read16. rewrite (slice_at data off 2 pre (be_bytes 2 n) post) by (assumption || (rewrite be_bytes_length; reflexivity)). rewrite be_val_be_bytes; [reflexivity|exact Hn]. Qed.
Lemma read32_at data off pre n post : n < 2 ^ 32 -> data = pre ++ be_bytes 4 n ++ post -> off = N.of_nat (length pre) -> read32 data off = Some n.
Proof. intros Hn E1 E2. unfold read32. rewrite (slice_at data off 4 pre (be_bytes 4 n) post) by (assumption || (rewrite be_bytes_length; reflexivity)). rewrite be_val_be_bytes; [reflexivity|exact Hn]. Qed.
Lemma bytes_mid a (x b : list N) : bytes (a ++ x ++ b) -> bytes x.
Proof. intros H. apply Forall_app in H. destruct H as [_ H]. apply Forall_app in H. apply H. Qed.
Lemma read16_inv pre tail off k n : bytes tail -> read16 (pre ++ tail) off = Some n -> off = N.of_nat (length pre) + k ->
  n < 2 ^ 16 /\ exists a b, tail = a ++ be_bytes 2 n ++ b /\ N.of_nat (length a) = k.
Proof.
  intros Hb H E. unfold read16 in H. destruct (slice (pre ++ tail) off 2) as [x|] eqn:Es; [|discriminate]. injection H as <-.
  destruct (slice_inv _ _ _ _ _ _ Es E) as [a [b [-> [Ha Hx]]]]. apply bytes_mid in Hb. assert (Hl : length x = 2%nat) by lia.
  split; [pose proof (be_val_lt x Hb) as Hlt; rewrite Hl in Hlt; exact Hlt|]. exists a, b. split; [|exact Ha]. rewrite <- Hl, be_bytes_be_val by exact Hb. reflexivity.
Qed.
Lemma read32_inv pre tail off k n : bytes tail -> read32 (pre ++ tail) off = Some n -> off = N.of_nat (length pre) + k ->
  n < 2 ^ 32 /\ exists a b, tail = a ++ be_bytes 4 n ++ b /\ N.of_nat (length a) = k.
Proof.
  intros Hb H E. unfold read32 in H. destruct (slice (pre ++ tail) off 4) as [x|] eqn:Es; [|discriminate]. injection H as <-.
  destruct (slice_inv _ _ _ _ _ _ Es E) as [a [b [-> [Ha Hx]]]]. apply bytes_mid in Hb. assert (Hl : length x = 4%nat) by lia.
  split; [pose proof (be_val_lt x Hb) as Hlt; rewrite Hl in Hlt; exact Hlt|]. exists a, b. split; [|exact Ha]. rewrite <- Hl, be_bytes_be_val by exact Hb. reflexivity.
Qed.
Ltac lens := repeat (rewrite ?app_length, ?be_bytes_length); try lia.

Section Parse.
Context {spec grp : Type} (e : jks_env spec grp) (He : env_ok e).
Let Hmal : malloc_ok (je_malloc e) := proj1 He.
Let Hsha : forall x, length (je_sha1 e x) = 20%nat := proj1 (proj2 He).
Let Hutf : forall p, Forall char_ok (fst (je_utf e p)) := proj1 (proj2 (proj2 He)).
Let Hnil : je_utf e [] = ([], true) := proj1 (proj2 (proj2 (proj2 He))).
Let Hattr : forall k x i, je_p8 e k x = Some i -> attrs_bytes (p8_attrs i) := proj2 (proj2 (proj2 (proj2 He))).

Lemma to_utf16_eq p : to_utf16 e p = Some (if snd (je_utf e p) then match fst (je_utf e p) with [] => None | cs => Some (concat cs) end else None).
Proof.
  unfold to_utf16. destruct (je_utf e p) as [cs ok] eqn:E. cbn [fst snd].
  pose proof (Hutf p) as Hc. rewrite E in Hc. cbn [fst] in Hc.
  rewrite utf16_spec; [destruct ok, cs; reflexivity|exact Hc| |lia].
  destruct p as [|c p]; [|left; cbn [length]; lia]. right. rewrite Hnil in E. injection E as <- <-. split; reflexivity.
Qed.
Lemma to_utf16_ok p p16 : password16 e p p16 -> to_utf16 e p = Some (Some p16).
Proof. intros [cs [E [Hne ->]]]. rewrite to_utf16_eq, E. cbn [fst snd]. destruct cs; [contradiction|reflexivity]. Qed.
Lemma to_utf16_inv p p16 : to_utf16 e p = Some (Some p16) -> password16 e p p16.
Proof.
  rewrite to_utf16_eq. destruct (je_utf e p) as [cs []] eqn:E; cbn [fst snd]; [|discriminate]. intros H. exists cs. destruct cs as [|c cs]; [discriminate|].
  injection H as <-. split; [exact E|]. split; [discriminate|reflexivity].
Qed.

(** *** Certificates *)
Lemma parse_cert_ok data off pre post c k x h a lk lc : data = pre ++ enc_cert c ++ post -> off = N.of_nat (length pre) -> cert_fits c ->
  je_x509 e k (c_der c) = Some x -> holds h a lk lc ->
  exists h', parse_cert e data off a (h, k) = Some ((h', S k), Some (off + N.of_nat (length (enc_cert c)))) /\ holds h' a lk (lc ++ [x]) /\ rest h h' a.
Proof.
  intros -> -> [Ft Fd] Hx Hh. unfold parse_cert, enc_cert. rewrite <- !app_assoc.
  erewrite read16_at; [|exact Ft|reflexivity|reflexivity].
  erewrite (read32_at _ _ (pre ++ be_bytes 2 (N.of_nat (length (c_type c))) ++ c_type c)); [|exact Fd|rewrite <- !app_assoc; reflexivity|lens].
  rewrite (slice_at _ _ _ (pre ++ be_bytes 2 (N.of_nat (length (c_type c))) ++ c_type c ++ be_bytes 4 (N.of_nat (length (c_der c)))) (c_der c) post);
    [|rewrite <- !app_assoc; reflexivity|lens|reflexivity].
  rewrite Hx. set (t := je_malloc e h). pose proof (Hmal h) as Hf. fold t in Hf.
  destruct (new_filled h t 0 1) as [Nk Nc]. destruct (fill_one _ _ _ _ _ x Nc) as [h2 [E2 [F2 [O2 S2]]]]. cbn [length app] in *. rewrite E2.
  assert (Nk' : filled h2 t Keys [] 0) by (eapply filled_other; [exact O2|discriminate|exact Nk]).
  assert (R2 : rest h h2 t).
  { split; [|eapply same_freed_trans; [|exact S2]; split; reflexivity].
    intros j Hj. rewrite (only_store (ks_new h t 0 1) h2 t), new_other; auto. eapply only_weak; [|exact O2]. cbn. tauto. }
  pose proof (holds_ne _ _ _ _ _ Hh Hf) as Hne.
  destruct (attach h h2 a t lk lc [] [x] Hne Hf R2 Hh (conj Nk' F2)) as [h3 [h4 [E3 [E4 [H4 R4]]]]]. rewrite E3, E4. rewrite app_nil_r in H4.
  exists h4. split; [|split; assumption]. do 3 f_equal. lens.
Qed.
Lemma parse_cert_inv data pre tail off a h k s' off' : data = pre ++ tail -> bytes tail -> off = N.of_nat (length pre) ->
  parse_cert e data off a (h, k) = Some (s', Some off') ->
  exists c post x, tail = enc_cert c ++ post /\ cert_fits c /\ je_x509 e k (c_der c) = Some x.
Proof.
  intros -> Hb -> H. unfold parse_cert in H. destruct (read16 _ _) as [tl|] eqn:E1; [|discriminate].
  apply (read16_inv pre tail _ 0) in E1; [|exact Hb|lia]. destruct E1 as [Ht [z [r1 [-> Hz]]]]. destruct z; [|cbn [length] in Hz; lia]. cbn [app] in *.
  rewrite app_assoc in H. apply Forall_app in Hb. destruct Hb as [_ Hb].
  destruct (read32 _ _) as [dl|] eqn:E2; [|discriminate].
  apply (read32_inv _ r1 _ tl) in E2; [|exact Hb|lens]. destruct E2 as [Hd [ty [r2 [-> Hty]]]].
  rewrite !app_assoc in H. rewrite <- !app_assoc in H. apply Forall_app in Hb. destruct Hb as [_ Hb]. apply Forall_app in Hb. destruct Hb as [_ Hb].
  replace (pre ++ be_bytes 2 tl ++ ty ++ be_bytes 4 dl ++ r2) with ((pre ++ be_bytes 2 tl ++ ty ++ be_bytes 4 dl) ++ r2) in H by (rewrite <- !app_assoc; reflexivity).
  destruct (slice _ _ _) as [der|] eqn:E3; [|discriminate].
  apply (slice_inv _ r2 _ 0) in E3; [|lens]. destruct E3 as [z [r3 [-> [Hz' Hder]]]]. destruct z; [|cbn [length] in Hz'; lia]. cbn [app] in *.
  destruct (je_x509 e k der) as [x|] eqn:Ex; [|discriminate].
  exists (CERT ty der), r3, x. unfold enc_cert, cert_fits. cbn [c_type c_der]. rewrite Hty, Hder, <- !app_assoc. split; [reflexivity|].
  split; [split; assumption|exact Ex].
Qed.

Lemma parse_certs_ok : forall l data off pre post k xs h a lk lc, data = pre ++ concat (map enc_cert l) ++ post -> off = N.of_nat (length pre) -> Forall cert_fits l ->
  chain_read e k l xs -> holds h a lk lc ->
  exists h', parse_certs e (length l) data off a (h, k) = Some ((h', (k + length l)%nat), Some (off + N.of_nat (length (concat (map enc_cert l))))) /\ holds h' a lk (lc ++ xs) /\ rest h h' a.
Proof.
  induction l as [|c l IH]; intros data off pre post k xs h a lk lc Hd Ho Hf Hr Hh; inversion Hr as [|? ? ? x xs' Hx Hxs]; subst.
  - cbn [length parse_certs map concat]. exists h. rewrite Nat.add_0_r, N.add_0_r, app_nil_r. split; [reflexivity|]. split; [exact Hh|apply rest_refl].
  - inversion Hf as [|? ? Fc Fl]. subst. cbn [length parse_certs map concat]. rewrite <- app_assoc.
    destruct (parse_cert_ok _ _ pre (concat (map enc_cert l) ++ post) c k x h a lk lc eq_refl eq_refl Fc Hx Hh) as [h1 [E1 [H1 R1]]].
    rewrite E1.
    destruct (IH (pre ++ enc_cert c ++ concat (map enc_cert l) ++ post) (N.of_nat (length pre) + N.of_nat (length (enc_cert c))) (pre ++ enc_cert c) post (S k) xs' h1 a lk (lc ++ [x])) as [h2 [E2 [H2 R2]]];
      [rewrite <- !app_assoc; reflexivity|rewrite app_length; lia|exact Fl|exact Hxs|exact H1|].
    rewrite E2. exists h2. split; [|split; [rewrite <- app_assoc in H2; exact H2|eapply rest_trans; eassumption]].
    f_equal. f_equal; [f_equal; lia|f_equal; rewrite app_length; lia].
Qed.
Lemma parse_certs_inv : forall n data pre tail off a h k s' off' lk lc, data = pre ++ tail -> bytes tail -> off = N.of_nat (length pre) -> holds h a lk lc ->
  parse_certs e n data off a (h, k) = Some (s', Some off') ->
  exists l post xs, length l = n /\ tail = concat (map enc_cert l) ++ post /\ Forall cert_fits l /\ chain_read e k l xs.
Proof.
  induction n as [|n IH]; intros data pre tail off a h k s' off' lk lc Hd Hb Ho Hh H.
  - exists [], tail, []. split; [reflexivity|]. split; [reflexivity|]. split; constructor.
  - cbn [parse_certs] in H. destruct (parse_cert e data off a (h, k)) as [[s1 [off1|]]|] eqn:E; [|discriminate|discriminate].
    destruct (parse_cert_inv _ _ _ _ _ _ _ _ _ Hd Hb Ho E) as [c [post [x [-> [Fc Hx]]]]].
    destruct (parse_cert_ok data off pre post c k x h a lk lc Hd Ho Fc Hx Hh) as [h1 [E1 [H1 _]]]. rewrite E1 in E. injection E as <- <-.
    apply Forall_app in Hb. destruct Hb as [_ Hb].
    destruct (IH data (pre ++ enc_cert c) post (off + N.of_nat (length (enc_cert c))) a h1 (S k) s' off' lk (lc ++ [x])) as [l [post' [xs [Hl [-> [Fl Hr]]]]]];
      [rewrite <- app_assoc; exact Hd|exact Hb|rewrite Ho, app_length; lia|exact H1|exact H|].
    exists (c :: l), post', (x :: xs). cbn [length map concat]. rewrite <- app_assoc. split; [lia|]. split; [reflexivity|]. split; constructor; assumption.
Qed.

(** *** Keys *)
Lemma keys_spec i : attrs_bytes (p8_attrs i) -> forall l, keys_of e i l <-> exists k1, p8_pkey i = Some k1 /\ l = k1 :: match pkeyFromAttributes (je_attr e) (p8_attrs i) with Some k => [k] | None => [] end.
Proof.
  intros Hb l. unfold keys_of. split.
  - intros [k1 [second [E [-> [[k2 [-> H]]|[-> H]]]]]]; exists k1; (split; [exact E|]).
    + apply (pkeyFromAttributes_spec (je_attr e) _ k2 Hb) in H. rewrite H. reflexivity.
    + destruct (pkeyFromAttributes (je_attr e) (p8_attrs i)) as [k2|] eqn:Ek; [|reflexivity]. exfalso. apply H. exists k2. apply (pkeyFromAttributes_spec (je_attr e) _ k2 Hb). exact Ek.
  - intros [k1 [E ->]]. exists k1. eexists. split; [exact E|]. split; [reflexivity|].
    destruct (pkeyFromAttributes (je_attr e) (p8_attrs i)) as [k2|] eqn:Ek.
    + left. exists k2. split; [reflexivity|]. apply (pkeyFromAttributes_spec (je_attr e) _ k2 Hb). exact Ek.
    + right. split; [reflexivity|]. intros [k2 H]. apply (pkeyFromAttributes_spec (je_attr e) _ k2 Hb) in H. congruence.
Qed.
Lemma fkp_ok data pwd16 salt plain i ks k h a lk lc : data = protect (je_sha1 e) pwd16 salt plain -> length salt = 20%nat ->
  je_p8 e k plain = Some i -> keys_of e i ks -> holds h a lk lc ->
  exists h', from_key_protector e data pwd16 a (h, k) = Some ((h', S k), true) /\ holds h' a (lk ++ ks) lc /\ rest h h' a.
Proof.
  intros -> Hs Hp Hk Hh. unfold from_key_protector. rewrite kp_decrypt_protect by assumption. rewrite Hp.
  apply (keys_spec i (Hattr _ _ _ Hp)) in Hk. destruct Hk as [k1 [E ->]].
  destruct (keysFromPKCS8_ok (je_attr e) (je_malloc e) h i k1 None Hmal E) as [h1 [t [E1 [-> [Hn [Fk [Fc [O S]]]]]]]]. rewrite E1.
  pose proof (holds_ne _ _ _ _ _ Hh Hn) as Hne.
  destruct (attach h h1 a _ lk lc _ [] Hne Hn (conj O S) Hh (conj Fk Fc)) as [h2 [h3 [E2 [E3 [H3 R3]]]]]. rewrite E2, E3. rewrite app_nil_r in H3.
  exists h3. split; [reflexivity|]. split; assumption.
Qed.
Lemma fkp_inv data pwd16 k h a s' : from_key_protector e data pwd16 a (h, k) = Some (s', true) ->
  exists salt plain i ks, data = protect (je_sha1 e) pwd16 salt plain /\ length salt = 20%nat /\ je_p8 e k plain = Some i /\ keys_of e i ks.
Proof.
  unfold from_key_protector. destruct (kp_decrypt e data pwd16) as [[plain|]|] eqn:E; [|discriminate|discriminate].
  destruct (kp_decrypt_inv e Hsha _ _ _ E) as [salt [Hs ->]]. intros H. exists salt, plain.
  destruct (je_p8 e k plain) as [i|] eqn:Ei; [|cbn in H; discriminate].
  destruct (p8_pkey i) as [k1|] eqn:E1; [|unfold keysFromPKCS8 in H; rewrite E1 in H; cbn in H; discriminate].
  exists i. eexists. split; [reflexivity|]. split; [exact Hs|]. split; [reflexivity|]. apply (keys_spec i (Hattr _ _ _ Ei)). exists k1. split; [exact E1|reflexivity].
Qed.
Lemma fkp_garbage data pwd16 salt plain k h a : data = protect (je_sha1 e) pwd16 salt plain -> length salt = 20%nat ->
  match je_p8 e k plain with None => True | Some i => p8_pkey i = None end -> from_key_protector e data pwd16 a (h, k) = None.
Proof.
  intros -> Hs H. unfold from_key_protector. rewrite kp_decrypt_protect by assumption.
  destruct (je_p8 e k plain) as [i|]; [|reflexivity]. unfold keysFromPKCS8. rewrite H. reflexivity.
Qed.
Lemma fkp_refused pwd16 salt enc check k h a : length salt = 20%nat -> length check = 20%nat ->
  je_sha1 e (pwd16 ++ crypt (je_sha1 e) pwd16 salt enc) <> check -> from_key_protector e (salt ++ enc ++ check) pwd16 a (h, k) = Some ((h, k), false).
Proof.
  intros Hs Hc Hne. unfold from_key_protector. rewrite kp_decrypt_split by assumption. destruct (list_eq_dec N.eq_dec _ check); [contradiction|reflexivity].
Qed.

(** *** Entries *)
Lemma oid_eqb_refl o : oid_eqb o o = true.
Proof. apply oid_eqb_spec. reflexivity. Qed.
Lemma oid_eqb_ne o o' : o <> o' -> oid_eqb o o' = false.
Proof. intros H. destruct (oid_eqb o o') eqn:E; [apply oid_eqb_spec in E; contradiction|reflexivity]. Qed.

Lemma parse_entry_ok data off pre post x keyPass k ks cs k' h a lk lc :
  data = pre ++ enc_entry x ++ post -> off = N.of_nat (length pre) -> entry_fits x ->
  entry_read e keyPass k x ks cs k' -> holds h a lk lc ->
  exists h', parse_entry e data off keyPass a (h, k) = Some ((h', k'), Some (off + N.of_nat (length (enc_entry x)))) /\ holds h' a (lk ++ ks) (lc ++ cs) /\ rest h h' a.
Proof.
  intros -> -> Hf Hr Hh. unfold parse_entry.
  assert (Hkey : forall alias stamp blob chain k1 h1 cs0 lk1, x = KeyEntry alias stamp blob chain ->
            decrypt_key e blob keyPass a (h, k) = Some ((h1, k1), true) -> holds h1 a lk1 lc -> rest h h1 a -> chain_read e k1 chain cs0 ->
            exists h', match read32 (pre ++ enc_entry x ++ post) (N.of_nat (length pre)) with
              | None => None
              | Some tag => if tag =? 1 then parse_key e (pre ++ enc_entry x ++ post) (N.of_nat (length pre) + 4) keyPass a (h, k)
                            else if tag =? 2 then parse_cert e (pre ++ enc_entry x ++ post) (N.of_nat (length pre) + 4) a (h, k)
                            else Some ((h, k), None)
              end = Some ((h', (k1 + length chain)%nat), Some (N.of_nat (length pre) + N.of_nat (length (enc_entry x)))) /\
              holds h' a lk1 (lc ++ cs0) /\ rest h h' a).
  { intros alias stamp blob chain k1 h1 cs0 lk1 -> Hd Hh1 R1 Hc. cbn [enc_entry entry_fits] in *. destruct Hf as [Fa [Fs [Fb [Fn Fc]]]]. rewrite <- !app_assoc.
    erewrite (read32_at _ _ pre 1); [|reflexivity|reflexivity|reflexivity]. change (1 =? 1) with true. cbv iota. unfold parse_key.
    erewrite (read16_at _ _ (pre ++ be_bytes 4 1)); [|exact Fa|rewrite <- !app_assoc; reflexivity|lens].
    erewrite (read32_at _ _ (pre ++ be_bytes 4 1 ++ be_bytes 2 (N.of_nat (length alias)) ++ alias ++ stamp)); [|exact Fb|rewrite <- !app_assoc; reflexivity|lens].
    erewrite (read32_at _ _ (pre ++ be_bytes 4 1 ++ be_bytes 2 (N.of_nat (length alias)) ++ alias ++ stamp ++ be_bytes 4 (N.of_nat (length blob)) ++ blob)); [|exact Fn|rewrite <- !app_assoc; reflexivity|lens].
    erewrite (slice_at _ _ _ (pre ++ be_bytes 4 1 ++ be_bytes 2 (N.of_nat (length alias)) ++ alias ++ stamp ++ be_bytes 4 (N.of_nat (length blob))) blob); [|rewrite <- !app_assoc; reflexivity|lens|reflexivity].
    rewrite Hd, Nat2N.id.
    edestruct (parse_certs_ok chain) as [h2 [E2 [H2 R2]]]; [| |exact Fc|exact Hc|exact Hh1|].
    3: { rewrite E2. exists h2. split; [|split; [exact H2|eapply rest_trans; eassumption]]. f_equal. f_equal. f_equal. lens. }
    - instantiate (1 := post). instantiate (1 := pre ++ be_bytes 4 1 ++ be_bytes 2 (N.of_nat (length alias)) ++ alias ++ stamp ++ be_bytes 4 (N.of_nat (length blob)) ++ blob ++ be_bytes 4 (N.of_nat (length chain))).
      rewrite <- !app_assoc. reflexivity.
    - lens. }
  inversion Hr as [? alias stamp blob chain pwd16 salt plain i ? ? Hp Hsig Hs Hi Hk Hc|? alias stamp blob chain pwd16 algo kd ? Hp Hsig Hn1 Hn2 Hc|? c x0 Hx0]; subst.
  - destruct (fkp_ok _ pwd16 salt plain i ks k h a lk lc eq_refl Hs Hi Hk Hh) as [h1 [E1 [Hh1 R1]]].
    apply (Hkey alias stamp blob chain (S k) h1 cs (lk ++ ks) eq_refl); auto.
    unfold decrypt_key. rewrite (to_utf16_ok _ _ Hp), Hsig, oid_eqb_refl. exact E1.
  - rewrite app_nil_r. apply (Hkey alias stamp blob chain k h cs lk eq_refl); auto; [|apply rest_refl].
    unfold decrypt_key. rewrite (to_utf16_ok _ _ Hp), Hsig, !oid_eqb_ne by assumption. reflexivity.
  - cbn [enc_entry entry_fits] in *. rewrite <- !app_assoc. erewrite (read32_at _ _ pre 2); [|reflexivity|reflexivity|reflexivity].
    change (2 =? 1) with false. change (2 =? 2) with true. cbv iota. rewrite app_nil_r.
    destruct (parse_cert_ok (pre ++ be_bytes 4 2 ++ enc_cert c ++ post) (N.of_nat (length pre) + 4) (pre ++ be_bytes 4 2) post c k x0 h a lk lc) as [h1 [E1 [H1 R1]]];
      [rewrite <- !app_assoc; reflexivity|lens|exact Hf|assumption|exact Hh|].
    rewrite E1. exists h1. split; [|split; assumption]. do 3 f_equal. lens.
Qed.

Lemma parse_entry_inv data pre tail off keyPass a h k s' off' lk lc : data = pre ++ tail -> bytes tail -> off = N.of_nat (length pre) -> holds h a lk lc ->
  parse_entry e data off keyPass a (h, k) = Some (s', Some off') ->
  exists x post ks cs k', tail = enc_entry x ++ post /\ entry_fits x /\ entry_read e keyPass k x ks cs k'.
Proof.
  intros -> Hb -> Hh H. unfold parse_entry in H. destruct (read32 _ _) as [tag|] eqn:E1; [|discriminate].
  apply (read32_inv pre tail _ 0) in E1; [|exact Hb|lia]. destruct E1 as [_ [z [r1 [-> Hz]]]]. destruct z; [|cbn [length] in Hz; lia]. cbn [app] in *.
  rewrite app_assoc in H. apply Forall_app in Hb. destruct Hb as [_ Hb].
  destruct (N.eqb_spec tag 1) as [->|H1]; [|destruct (N.eqb_spec tag 2) as [->|H2]; [|discriminate]].
  - unfold parse_key in H. destruct (read16 _ _) as [nl|] eqn:E2; [|discriminate].
    apply (read16_inv _ r1 _ 0) in E2; [|exact Hb|lens]. destruct E2 as [Hn [z [r2 [-> Hz']]]]. destruct z; [|cbn [length] in Hz'; lia]. cbn [app] in *.
    apply Forall_app in Hb. destruct Hb as [_ Hb]. rewrite app_assoc in H.
    destruct (read32 _ (_ + 8)) as [dl|] eqn:E3; [|discriminate].
    apply (read32_inv _ r2 _ (nl + 8)) in E3; [|exact Hb|lens]. destruct E3 as [Hd [m [r3 [-> Hm]]]].
    apply Forall_app in Hb. destruct Hb as [_ Hb]. apply Forall_app in Hb. destruct Hb as [_ Hb].
    replace (((pre ++ be_bytes 4 1) ++ be_bytes 2 nl) ++ m ++ be_bytes 4 dl ++ r3) with ((pre ++ be_bytes 4 1 ++ be_bytes 2 nl ++ m ++ be_bytes 4 dl) ++ r3) in H by (rewrite <- !app_assoc; reflexivity).
    destruct (read32 _ _) as [cn|] eqn:E4; [|discriminate].
    apply (read32_inv _ r3 _ dl) in E4; [|exact Hb|lens]. destruct E4 as [Hcn [blob [r4 [-> Hblob]]]].
    apply Forall_app in Hb. destruct Hb as [_ Hb]. apply Forall_app in Hb. destruct Hb as [_ Hb].
    rewrite (slice_at _ _ _ (pre ++ be_bytes 4 1 ++ be_bytes 2 nl ++ m ++ be_bytes 4 dl) blob (be_bytes 4 cn ++ r4)) in H; [|reflexivity|lens|lia].
    destruct (decrypt_key e blob keyPass a (h, k)) as [[[h1 k1] []]|] eqn:Ed; [|discriminate|discriminate].
    (* the part before the length of the blob is alias and timestamp *)
    set (alias := firstn (N.to_nat nl) m). set (stamp := skipn (N.to_nat nl) m).
    assert (Em : m = alias ++ stamp) by (unfold alias, stamp; rewrite firstn_skipn; reflexivity).
    assert (La : N.of_nat (length alias) = nl) by (unfold alias; rewrite firstn_length; lia).
    assert (Ls : length stamp = 8%nat) by (unfold stamp; rewrite skipn_length; lia).
    unfold decrypt_key in Ed. destruct (to_utf16 e keyPass) as [[p16|]|] eqn:Eu; [|discriminate|discriminate].
    pose proof (to_utf16_inv _ _ Eu) as Hp16.
    destruct (je_sig e blob) as [[algo kd]|] eqn:Es; [|discriminate].
    destruct (oid_eqb algo keyProtectorOID) eqn:Ea.
    + apply oid_eqb_spec in Ea. subst algo. destruct (fkp_inv _ _ _ _ _ _ Ed) as [salt [plain [i [ks [-> [Hs [Hi Hk]]]]]]].
      destruct (fkp_ok _ p16 salt plain i ks k h a lk lc eq_refl Hs Hi Hk Hh) as [h2 [E2 [Hh2 _]]]. rewrite E2 in Ed. injection Ed as <- <-.
      apply (parse_certs_inv _ _ (pre ++ be_bytes 4 1 ++ be_bytes 2 nl ++ m ++ be_bytes 4 dl ++ blob ++ be_bytes 4 cn) r4 _ _ _ _ _ _ (lk ++ ks) lc) in H;
        [|rewrite <- !app_assoc; reflexivity|exact Hb|lens|exact Hh2].
      destruct H as [chain [post [xs [Hl [-> [Fc Hr]]]]]].
      exists (KeyEntry alias stamp blob chain), post, ks, xs, (S k + length chain)%nat.
      split; [cbn [enc_entry]; rewrite La, Hl, Hblob, N2Nat.id, Em, <- !app_assoc; reflexivity|].
      split; [cbn; rewrite La, Hl, Hblob, N2Nat.id; repeat (split; [assumption|]); assumption|].
      econstructor; eassumption.
    + destruct (oid_eqb algo pbes1OID) eqn:Ea'; [discriminate|]. injection Ed as <- <-.
      apply (parse_certs_inv _ _ (pre ++ be_bytes 4 1 ++ be_bytes 2 nl ++ m ++ be_bytes 4 dl ++ blob ++ be_bytes 4 cn) r4 _ _ _ _ _ _ lk lc) in H;
        [|rewrite <- !app_assoc; reflexivity|exact Hb|lens|exact Hh].
      destruct H as [chain [post [xs [Hl [-> [Fc Hr]]]]]].
      exists (KeyEntry alias stamp blob chain), post, [], xs, (k + length chain)%nat.
      split; [cbn [enc_entry]; rewrite La, Hl, Hblob, N2Nat.id, Em, <- !app_assoc; reflexivity|].
      split; [cbn; rewrite La, Hl, Hblob, N2Nat.id; repeat (split; [assumption|]); assumption|].
      eapply read_unknown; [exact Hp16|exact Es| | |exact Hr]; intros ->; rewrite oid_eqb_refl in *; discriminate.
  - apply (parse_cert_inv _ (pre ++ be_bytes 4 2) r1) in H; [|reflexivity|exact Hb|lens]. destruct H as [c [post [x [-> [Fc Hx]]]]].
    exists (BareCert c), post, [], [x], (S k). cbn [enc_entry entry_fits]. rewrite <- app_assoc. split; [reflexivity|]. split; [exact Fc|]. constructor. exact Hx.
Qed.

Lemma parse_entries_ok keyPass a : forall l data off pre post k ks cs k' h lk lc,
  data = pre ++ concat (map enc_entry l) ++ post -> off = N.of_nat (length pre) -> Forall entry_fits l ->
  entries_read e keyPass k l ks cs k' -> holds h a lk lc ->
  exists h', parse_entries e (length l) data off keyPass a (h, k) = Some ((h', k'), Some (off + N.of_nat (length (concat (map enc_entry l))))) /\ holds h' a (lk ++ ks) (lc ++ cs) /\ rest h h' a.
Proof.
  induction l as [|x l IH]; intros data off pre post k ks cs k' h lk lc Hd Ho Hf Hr Hh; inversion Hr as [|? ? ? ks1 cs1 k1 ks2 cs2 ? Hx Hl]; subst.
  - exists h. cbn [length parse_entries map concat]. rewrite N.add_0_r, !app_nil_r. split; [reflexivity|]. split; [exact Hh|apply rest_refl].
  - inversion Hf as [|? ? Fx Fl]. subst. cbn [length parse_entries map concat]. rewrite <- app_assoc.
    destruct (parse_entry_ok _ _ pre (concat (map enc_entry l) ++ post) x keyPass k ks1 cs1 k1 h a lk lc eq_refl eq_refl Fx Hx Hh) as [h1 [E1 [H1 R1]]].
    rewrite E1.
    destruct (IH (pre ++ enc_entry x ++ concat (map enc_entry l) ++ post) (N.of_nat (length pre) + N.of_nat (length (enc_entry x))) (pre ++ enc_entry x) post k1 ks2 cs2 k' h1 (lk ++ ks1) (lc ++ cs1)) as [h2 [E2 [H2 R2]]];
      [rewrite <- !app_assoc; reflexivity|rewrite app_length; lia|exact Fl|exact Hl|exact H1|].
    rewrite E2. exists h2. split; [f_equal; f_equal; f_equal; rewrite app_length; lia|]. rewrite <- !app_assoc in H2. split; [exact H2|eapply rest_trans; eassumption].
Qed.
Lemma parse_entries_inv keyPass a : forall n data pre tail off h k s' off' lk lc, data = pre ++ tail -> bytes tail -> off = N.of_nat (length pre) -> holds h a lk lc ->
  parse_entries e n data off keyPass a (h, k) = Some (s', Some off') ->
  exists l post ks cs k', length l = n /\ tail = concat (map enc_entry l) ++ post /\ Forall entry_fits l /\ entries_read e keyPass k l ks cs k'.
Proof.
  induction n as [|n IH]; intros data pre tail off h k s' off' lk lc Hd Hb Ho Hh H.
  - exists [], tail, [], [], k. split; [reflexivity|]. split; [reflexivity|]. split; constructor.
  - cbn [parse_entries] in H. destruct (parse_entry e data off keyPass a (h, k)) as [[s1 [off1|]]|] eqn:E; [|discriminate|discriminate].
    destruct (parse_entry_inv _ _ _ _ _ _ _ _ _ _ _ _ Hd Hb Ho Hh E) as [x [post [ks [cs [k' [-> [Fx Hx]]]]]]].
    destruct (parse_entry_ok data off pre post x keyPass k ks cs k' h a lk lc Hd Ho Fx Hx Hh) as [h1 [E1 [H1 _]]]. rewrite E1 in E. injection E as <- <-.
    apply Forall_app in Hb. destruct Hb as [_ Hb].
    destruct (IH data (pre ++ enc_entry x) post (off + N.of_nat (length (enc_entry x))) h1 k' s' off' (lk ++ ks) (lc ++ cs)) as [l [post' [ks' [cs' [k2 [Hl [-> [Fl Hr]]]]]]]];
      [rewrite <- app_assoc; exact Hd|exact Hb|rewrite Ho, app_length; lia|exact H1|exact H|].
    exists (x :: l), post', (ks ++ ks'), (cs ++ cs'), k2. cbn [length map concat]. rewrite <- app_assoc. split; [lia|]. split; [reflexivity|]. split; econstructor; eassumption.
Qed.

(** *** The whole store *)
Lemma slice1_at data off pre b post : data = pre ++ b :: post -> off = N.of_nat (length pre) -> slice data off 1 = Some [b].
Proof. intros E1 E2. apply (slice_at _ _ _ pre [b] post E1 E2). reflexivity. Qed.
Lemma cmp_digest_spec : forall digest data off pre tail, data = pre ++ tail -> off = N.of_nat (length pre) ->
  match cmp_digest digest data off with
  | Some true => exists post, tail = digest ++ post
  | Some false => ~ exists post, tail = digest ++ post
  | None => (length tail < length digest)%nat /\ tail = firstn (length tail) digest
  end.
Proof.
  induction digest as [|d digest IH]; intros data off pre tail Hd Ho; cbn [cmp_digest]; [exists tail; reflexivity|].
  destruct tail as [|b tail].
  - unfold slice. rewrite Hd, app_nil_r, Ho. replace (N.of_nat (length pre) + 1 <=? N.of_nat (length pre)) with false by lia. cbn [length]. split; [lia|reflexivity].
  - rewrite (slice1_at data off pre b tail Hd Ho). destruct (N.eqb_spec d b) as [<-|Hne].
    + specialize (IH data (off + 1) (pre ++ [d]) tail). rewrite <- app_assoc in IH. specialize (IH Hd). rewrite app_length in IH. cbn [length] in IH. specialize (IH ltac:(lia)).
      destruct (cmp_digest digest data (off + 1)) as [[]|].
      * destruct IH as [post ->]. exists post. reflexivity.
      * intros [post [= E]]. apply IH. exists post. exact E.
      * cbn [length firstn]. destruct IH as [H1 H2]. split; [lia|]. f_equal. exact H2.
    + intros [post [= E _]]. congruence.
Qed.

Lemma header_eqs magic l post : length magic = 4%nat -> N.of_nat (length l) < 2 ^ 32 ->
  let data := enc_store magic l ++ post in
  slice data 0 4 = Some magic /\ read32 data 8 = Some (N.of_nat (length l)) /\ slice data 4 4 = Some [0; 0; 0; 2].
Proof.
  intros Hm Hl data. unfold data, enc_store. rewrite <- !app_assoc. split; [|split].
  - apply (slice_at _ _ _ [] magic ([0; 0; 0; 2] ++ be_bytes 4 (N.of_nat (length l)) ++ concat (map enc_entry l) ++ post)); [reflexivity|reflexivity|rewrite Hm; reflexivity].
  - apply (read32_at _ _ (magic ++ [0; 0; 0; 2]) _ (concat (map enc_entry l) ++ post)); [exact Hl|rewrite <- !app_assoc; reflexivity|rewrite app_length, Hm; reflexivity].
  - apply (slice_at _ _ _ magic [0; 0; 0; 2] (be_bytes 4 (N.of_nat (length l)) ++ concat (map enc_entry l) ++ post)); [reflexivity|rewrite Hm; reflexivity|reflexivity].
Qed.

Lemma parse_jks_ok magic l post storePass store16 keyPass k ks cs k' h p :
  is_magic magic -> N.of_nat (length l) < 2 ^ 32 -> Forall entry_fits l -> password16 e storePass store16 -> entries_read e keyPass k l ks cs k' ->
  exists h', parseJKS e (enc_store magic l ++ digest_of e store16 (enc_store magic l) ++ post) storePass keyPass (h, k) p = Some ((h', k'), true, Some (je_malloc e h)) /\
    holds h' (je_malloc e h) ks cs /\ rest h h' (je_malloc e h).
Proof.
  intros Hm Hl Hf Hp Hr. set (data := enc_store magic l ++ _). set (a := je_malloc e h).
  assert (Lm : length magic = 4%nat) by (destruct Hm as [-> | ->]; reflexivity).
  destruct (header_eqs magic l (digest_of e store16 (enc_store magic l) ++ post) Lm Hl) as [E1 [E2 E3]]. fold data in E1, E2, E3.
  unfold parseJKS. rewrite E1, E2, E3.
  replace (negb (oid_eqb magic [254; 237; 254; 237]) && negb (oid_eqb magic [206; 206; 206; 206])) with false
    by (destruct Hm as [-> | ->]; reflexivity). cbv iota. change (negb (oid_eqb [0; 0; 0; 2] [0; 0; 0; 2])) with false. cbv iota.
  rewrite (to_utf16_ok _ _ Hp). fold a. rewrite Nat2N.id. destruct (new_filled h a 0 0) as [Nk Nc].
  assert (R0 : rest h (ks_new h a 0 0) a) by (split; [intros j Hj; apply new_other; exact Hj|split; reflexivity]).
  destruct (parse_entries_ok keyPass a l data 12 (magic ++ [0; 0; 0; 2] ++ be_bytes 4 (N.of_nat (length l))) (digest_of e store16 (enc_store magic l) ++ post) k ks cs k' (ks_new h a 0 0) [] []) as [h1 [E4 [H1 R1]]];
    [unfold data, enc_store at 1; rewrite <- !app_assoc; reflexivity|rewrite !app_length, be_bytes_length, Lm; reflexivity|exact Hf|exact Hr|split; assumption|].
  rewrite E4.
  assert (Eo : 12 + N.of_nat (length (concat (map enc_entry l))) = N.of_nat (length (enc_store magic l))).
  { unfold enc_store. rewrite !app_length, be_bytes_length, Lm. cbn [length]. lia. }
  rewrite Eo. rewrite (slice_at data 0 _ [] (enc_store magic l) (digest_of e store16 (enc_store magic l) ++ post)) by reflexivity.
  pose proof (cmp_digest_spec (white_hash e store16 (enc_store magic l)) data (N.of_nat (length (enc_store magic l))) (enc_store magic l) _ eq_refl eq_refl) as Hc.
  destruct (cmp_digest _ data _) as [[]|].
  - exists h1. split; [reflexivity|]. split; [exact H1|eapply rest_trans; eassumption].
  - exfalso. apply Hc. exists post. reflexivity.
  - exfalso. destruct Hc as [Hc _]. unfold white_hash in Hc. rewrite app_length, Hsha in Hc. unfold digest_of in Hc. rewrite Hsha in Hc. lia.
Qed.

Lemma parse_jks_inv data storePass keyPass h k p s' p' : bytes data -> parseJKS e data storePass keyPass (h, k) p = Some (s', true, p') ->
  exists magic l post store16 ks cs k', data = enc_store magic l ++ digest_of e store16 (enc_store magic l) ++ post /\
    is_magic magic /\ N.of_nat (length l) < 2 ^ 32 /\ Forall entry_fits l /\ password16 e storePass store16 /\ entries_read e keyPass k l ks cs k'.
Proof.
  intros Hb H. unfold parseJKS in H.
  destruct (slice data 0 4) as [magic|] eqn:E1; [|discriminate]. destruct (read32 data 8) as [n|] eqn:E2; [|discriminate].
  destruct (negb (oid_eqb magic [254; 237; 254; 237]) && negb (oid_eqb magic [206; 206; 206; 206])) eqn:Em; [discriminate|].
  assert (Hm : is_magic magic).
  { destruct (oid_eqb magic [254; 237; 254; 237]) eqn:Ea; [left; apply oid_eqb_spec; exact Ea|].
    destruct (oid_eqb magic [206; 206; 206; 206]) eqn:Eb; [right; apply oid_eqb_spec; exact Eb|discriminate]. }
  assert (Lm : length magic = 4%nat) by (destruct Hm as [-> | ->]; reflexivity).
  destruct (slice data 4 4) as [version|] eqn:E3; [|discriminate].
  destruct (oid_eqb version [0; 0; 0; 2]) eqn:Ev; [|discriminate]. apply oid_eqb_spec in Ev. subst version. cbv iota in H. cbn [negb] in H.
  destruct (to_utf16 e storePass) as [[store16|]|] eqn:Eu; [|discriminate|discriminate]. apply to_utf16_inv in Eu.
  (* the layout of the header *)
  apply (slice_inv [] data 0 0) in E1; [|reflexivity]. destruct E1 as [z [r1 [-> [Hz _]]]]. destruct z; [|cbn [length] in Hz; lia]. cbn [app] in *. clear Hz.
  apply (slice_inv magic r1 4 0) in E3; [|rewrite Lm; reflexivity]. destruct E3 as [z [r2 [-> [Hz _]]]]. destruct z; [|cbn [length] in Hz; lia]. change ([] ++ [0; 0; 0; 2] ++ r2) with ([0; 0; 0; 2] ++ r2) in *. clear Hz.
  apply Forall_app in Hb. destruct Hb as [_ Hb]. apply Forall_app in Hb. destruct Hb as [_ Hb].
  rewrite app_assoc in E2. apply (read32_inv _ r2 8 0) in E2; [|exact Hb|rewrite app_length, Lm; reflexivity]. destruct E2 as [Hn [z [r3 [-> Hz]]]]. destruct z; [|cbn [length] in Hz; lia]. cbn [app] in *. clear Hz.
  apply Forall_app in Hb. destruct Hb as [_ Hb]. set (a := je_malloc e h) in *.
  replace (magic ++ 0 :: 0 :: 0 :: 2 :: be_bytes 4 n ++ r3) with ((magic ++ [0; 0; 0; 2] ++ be_bytes 4 n) ++ r3) in * by (rewrite <- !app_assoc; reflexivity).
  set (data := (magic ++ [0; 0; 0; 2] ++ be_bytes 4 n) ++ r3) in *.
  destruct (new_filled h a 0 0) as [Nk Nc].
  destruct (parse_entries e (N.to_nat n) data 12 keyPass a (ks_new h a 0 0, k)) as [[[h1 k1] [off|]]|] eqn:Ep; [| |discriminate].
  2: { destruct (ks_free h1 (Some a)); discriminate. }
  destruct (parse_entries_inv keyPass a (N.to_nat n) data (magic ++ [0; 0; 0; 2] ++ be_bytes 4 n) r3 12 (ks_new h a 0 0) k (h1, k1) off [] []) as [l [tail [ks [cs [k' [Hl [-> [Fl Hr]]]]]]]];
    [reflexivity|exact Hb|rewrite !app_length, be_bytes_length, Lm; reflexivity|split; assumption|exact Ep|].
  assert (En : n = N.of_nat (length l)) by lia.
  assert (Ed : data = enc_store magic l ++ tail) by (unfold data, enc_store; rewrite En, <- !app_assoc; reflexivity).
  destruct (parse_entries_ok keyPass a l data 12 (magic ++ [0; 0; 0; 2] ++ be_bytes 4 n) tail k ks cs k' (ks_new h a 0 0) [] []) as [h2 [E4 _]];
    [unfold data; rewrite <- !app_assoc; reflexivity|rewrite !app_length, be_bytes_length, Lm; reflexivity|exact Fl|exact Hr|split; assumption|].
  rewrite Hl in E4. rewrite E4 in Ep. injection Ep as <- <- <-.
  assert (Eo : 12 + N.of_nat (length (concat (map enc_entry l))) = N.of_nat (length (enc_store magic l))).
  { unfold enc_store. rewrite !app_length, be_bytes_length, Lm. cbn [length]. lia. }
  rewrite Eo in H. rewrite (slice_at data 0 _ [] (enc_store magic l) tail) in H by (exact Ed || reflexivity).
  pose proof (cmp_digest_spec (white_hash e store16 (enc_store magic l)) data (N.of_nat (length (enc_store magic l))) (enc_store magic l) tail Ed eq_refl) as Hc.
  destruct (cmp_digest _ data _) as [[]|]; [|destruct (ks_free h2 (Some a)); discriminate|discriminate].
  destruct Hc as [post ->]. exists magic, l, post, store16, ks, cs, k'. split; [exact Ed|]. split; [exact Hm|]. split; [rewrite <- En; exact Hn|]. split; [exact Fl|]. split; assumption.
Qed.

(** The caller's view. *)
Lemma jks_round_trip magic l post storePass store16 keyPass k ks cs k' h p :
  is_magic magic -> N.of_nat (length l) < 2 ^ 32 -> Forall entry_fits l -> password16 e storePass store16 -> entries_read e keyPass k l ks cs k' ->
  exists h' a, parseJKS e (enc_store magic l ++ digest_of e store16 (enc_store magic l) ++ post) storePass keyPass (h, k) p = Some ((h', k'), true, Some a) /\
    shows h' a Keys ks /\ shows h' a Certs cs /\ hp_store h a = None /\ (forall j, j <> a -> hp_store h' j = hp_store h j) /\ hp_fk h' = hp_fk h /\ hp_fc h' = hp_fc h.
Proof.
  intros Hm Hl Hf Hp Hr. destruct (parse_jks_ok magic l post storePass store16 keyPass k ks cs k' h p Hm Hl Hf Hp Hr) as [h' [E [[Fk Fc] [R [Z1 Z2]]]]].
  exists h', (je_malloc e h). split; [exact E|]. split; [apply filled_shows; exact Fk|]. split; [apply filled_shows; exact Fc|]. split; [apply Hmal|]. auto.
Qed.
Lemma jks_success data storePass keyPass h k p h' k' p' : bytes data -> parseJKS e data storePass keyPass (h, k) p = Some ((h', k'), true, p') ->
  exists magic l post store16 ks cs a, data = enc_store magic l ++ digest_of e store16 (enc_store magic l) ++ post /\
    is_magic magic /\ Forall entry_fits l /\ password16 e storePass store16 /\ entries_read e keyPass k l ks cs k' /\
    p' = Some a /\ shows h' a Keys ks /\ shows h' a Certs cs.
Proof.
  intros Hb H. destruct (parse_jks_inv _ _ _ _ _ _ _ _ Hb H) as [magic [l [post [store16 [ks [cs [k1 [-> [Hm [Hl [Hf [Hp Hr]]]]]]]]]]]].
  destruct (jks_round_trip magic l post storePass store16 keyPass k ks cs k1 h p Hm Hl Hf Hp Hr) as [h1 [a [E [S1 [S2 _]]]]].
  rewrite E in H. injection H as <- <- <-. exists magic, l, post, store16, ks, cs, a. auto 10.
Qed.

Lemma jks_truncated magic n post storePass store16 keyPass s p : is_magic magic -> 0 < n < 2 ^ 32 -> (length post < 4)%nat -> password16 e storePass store16 ->
  parseJKS e (magic ++ [0; 0; 0; 2] ++ be_bytes 4 n ++ post) storePass keyPass s p = None.
Proof.
  intros Hm Hn Hp Hpw. assert (Lm : length magic = 4%nat) by (destruct Hm as [-> | ->]; reflexivity). unfold parseJKS.
  rewrite (slice_at _ 0 4 [] magic ([0; 0; 0; 2] ++ be_bytes 4 n ++ post)) by (reflexivity || (rewrite Lm; reflexivity)).
  rewrite (read32_at _ 8 (magic ++ [0; 0; 0; 2]) n post); [|lia|rewrite <- app_assoc; reflexivity|rewrite app_length, Lm; reflexivity].
  rewrite (slice_at _ 4 4 magic [0; 0; 0; 2] (be_bytes 4 n ++ post)) by (reflexivity || (rewrite Lm; reflexivity)).
  replace (negb (oid_eqb magic [254; 237; 254; 237]) && negb (oid_eqb magic [206; 206; 206; 206])) with false by (destruct Hm as [-> | ->]; reflexivity).
  cbv iota. change (negb (oid_eqb [0; 0; 0; 2] [0; 0; 0; 2])) with false. cbv iota.
  rewrite (to_utf16_ok _ _ Hpw). destruct s as [h k]. destruct (N.to_nat n) as [|m] eqn:En; [lia|]. cbn [parse_entries]. unfold parse_entry.
  assert (E : read32 (magic ++ [0; 0; 0; 2] ++ be_bytes 4 n ++ post) 12 = None); [|rewrite E; reflexivity].
  unfold read32, slice. rewrite !app_length, be_bytes_length, Lm. cbn [length]. replace (12 + 4 <=? N.of_nat (4 + (4 + (4 + length post)))) with false by lia. reflexivity.
Qed.

(** A certificate entry in the layout of the format. *)

(** A wrong digest: the pointer given back is dangling. *)
Lemma jks_dangling magic d storePass store16 keyPass h k p : is_magic magic -> password16 e storePass store16 -> (20 <= length d)%nat ->
  firstn 20 d <> digest_of e store16 (enc_store magic []) ->
  exists h' a, parseJKS e (enc_store magic [] ++ d) storePass keyPass (h, k) p = Some ((h', k), false, Some a) /\ hp_store h' a = None /\ ks_free h' (Some a) = None.
Proof.
  intros Hm Hp Hl Hd. assert (Lm : length magic = 4%nat) by (destruct Hm as [-> | ->]; reflexivity).
  destruct (header_eqs magic [] d Lm ltac:(reflexivity)) as [E1 [E2 E3]]. unfold parseJKS. rewrite E1, E2, E3.
  replace (negb (oid_eqb magic [254; 237; 254; 237]) && negb (oid_eqb magic [206; 206; 206; 206])) with false by (destruct Hm as [-> | ->]; reflexivity).
  cbv iota. change (negb (oid_eqb [0; 0; 0; 2] [0; 0; 0; 2])) with false. cbv iota. rewrite (to_utf16_ok _ _ Hp).
  change (N.to_nat (N.of_nat (length (@nil entry)))) with 0%nat. cbn [parse_entries]. set (a := je_malloc e h).
  rewrite (slice_at _ 0 12 [] (enc_store magic []) d); [|reflexivity|reflexivity|unfold enc_store; rewrite !app_length, Lm; reflexivity].
  pose proof (cmp_digest_spec (white_hash e store16 (enc_store magic [])) (enc_store magic [] ++ d) 12 (enc_store magic []) d eq_refl) as Hc.
  specialize (Hc ltac:(unfold enc_store; rewrite !app_length, Lm; reflexivity)).
  destruct (cmp_digest _ _ 12) as [[]|].
  - exfalso. destruct Hc as [post ->]. apply Hd. unfold white_hash, digest_of in *.
    assert (E : firstn 20 (je_sha1 e (store16 ++ mighty ++ enc_store magic []) ++ post) = je_sha1 e (store16 ++ mighty ++ enc_store magic [])); [|exact E].
    rewrite <- (Hsha (store16 ++ mighty ++ enc_store magic [])) at 1. rewrite firstn_app, Nat.sub_diag, firstn_all, firstn_O, app_nil_r. reflexivity.
  - destruct (new_filled h a 0 0) as [[x [Ex Rx]] [y [Ey Ry]]].
    rewrite (ks_free_null _ a x y 0 0 Ex Ey Rx Ry).
    exists (put_store (ks_new h a 0 0) a None), a. split; [reflexivity|].
    assert (E : hp_store (put_store (ks_new h a 0 0) a None) a = None) by (unfold hp_store, put_store; cbn [hp_stores]; rewrite hp_store_sset, Nat.eqb_refl; reflexivity).
    split; [exact E|]. unfold ks_free. rewrite E. reflexivity.
  - exfalso. destruct Hc as [Hc _]. unfold white_hash in Hc. rewrite Hsha in Hc. lia.
Qed.
(** An entry of unknown kind: the same. *)
Lemma jks_kind_dangling magic n tag post storePass store16 keyPass h k p : is_magic magic -> password16 e storePass store16 -> 0 < n < 2 ^ 32 -> tag < 2 ^ 32 -> tag <> 1 -> tag <> 2 ->
  exists h' a, parseJKS e (magic ++ [0; 0; 0; 2] ++ be_bytes 4 n ++ be_bytes 4 tag ++ post) storePass keyPass (h, k) p = Some ((h', k), false, Some a) /\ hp_store h' a = None /\ ks_free h' (Some a) = None.
Proof.
  intros Hm Hp Hn Ht T1 T2. assert (Lm : length magic = 4%nat) by (destruct Hm as [-> | ->]; reflexivity). unfold parseJKS.
  set (tail := be_bytes 4 tag ++ post).
  rewrite (slice_at _ 0 4 [] magic ([0; 0; 0; 2] ++ be_bytes 4 n ++ tail)) by (reflexivity || (rewrite Lm; reflexivity)).
  rewrite (read32_at _ 8 (magic ++ [0; 0; 0; 2]) n tail); [|lia|rewrite <- app_assoc; reflexivity|rewrite app_length, Lm; reflexivity].
  rewrite (slice_at _ 4 4 magic [0; 0; 0; 2] (be_bytes 4 n ++ tail)) by (reflexivity || (rewrite Lm; reflexivity)).
  replace (negb (oid_eqb magic [254; 237; 254; 237]) && negb (oid_eqb magic [206; 206; 206; 206])) with false by (destruct Hm as [-> | ->]; reflexivity).
  cbv iota. change (negb (oid_eqb [0; 0; 0; 2] [0; 0; 0; 2])) with false. cbv iota.
  rewrite (to_utf16_ok _ _ Hp). destruct (N.to_nat n) as [|m] eqn:En; [lia|]. cbn [parse_entries]. unfold parse_entry.
  rewrite (read32_at _ 12 (magic ++ [0; 0; 0; 2] ++ be_bytes 4 n) tag post);
    [|exact Ht|rewrite <- !app_assoc; reflexivity|rewrite !app_length, be_bytes_length, Lm; reflexivity].
  replace (tag =? 1) with false by lia. replace (tag =? 2) with false by lia. set (a := je_malloc e h).
  destruct (new_filled h a 0 0) as [[x [Ex Rx]] [y [Ey Ry]]]. rewrite (ks_free_null _ a x y 0 0 Ex Ey Rx Ry).
  exists (put_store (ks_new h a 0 0) a None), a. split; [reflexivity|].
  assert (E : hp_store (put_store (ks_new h a 0 0) a None) a = None) by (unfold hp_store, put_store; cbn [hp_stores]; rewrite hp_store_sset, Nat.eqb_refl; reflexivity).
  split; [exact E|]. unfold ks_free. rewrite E. reflexivity.
Qed.
Lemma jks_unknown magic alias stamp blob algo x storePass store16 keyPass key16 k h p :
  is_magic magic -> entry_fits (KeyEntry alias stamp blob []) -> password16 e storePass store16 -> password16 e keyPass key16 ->
  je_sig e blob = Some (algo, x) -> algo <> keyProtectorOID -> algo <> pbes1OID ->
  let data := enc_store magic [KeyEntry alias stamp blob []] in
  exists h' a, parseJKS e (data ++ digest_of e store16 data) storePass keyPass (h, k) p = Some ((h', k), true, Some a) /\ shows h' a Keys [].
Proof.
  intros Hm Hf Hp Hk Hs H1 H2 data.
  assert (Hr : entries_read e keyPass k [KeyEntry alias stamp blob []] [] [] k).
  { change (@nil nat) with (@nil nat ++ []). eapply entries_cons; [|constructor]. replace k with (k + length (@nil cert_part))%nat at 2 by (cbn; lia).
    eapply read_unknown; [exact Hk|exact Hs|exact H1|exact H2|constructor]. }
  destruct (jks_round_trip magic [KeyEntry alias stamp blob []] [] storePass store16 keyPass k [] [] k h p Hm eq_refl (Forall_cons _ Hf (Forall_nil _)) Hp Hr) as [h' [a [E [S _]]]].
  rewrite app_nil_r in E. exists h', a. split; assumption.
Qed.
End Parse.

(** Facts that need no assumption on what is outside. *)
Section Any.
Context {spec grp : Type} (e : jks_env spec grp).
Lemma fkp_short data pwd16 s a : (length data < 40)%nat -> from_key_protector e data pwd16 a s = None.
Proof. intros H. unfold from_key_protector, kp_decrypt. replace (N.of_nat (length data) <? 40) with true by lia. reflexivity. Qed.
Lemma jks_short data storePass keyPass s p : (length data < 12)%nat -> parseJKS e data storePass keyPass s p = None.
Proof.
  intros H. unfold parseJKS. destruct (slice data 0 4) as [m|]; [|reflexivity].
  assert (E : read32 data 8 = None); [|rewrite E; reflexivity].
  unfold read32, slice. replace (8 + 4 <=? N.of_nat (length data)) with false by lia. reflexivity.
Qed.
Lemma jks_trusted magic n alias stamp c post storePass keyPass s p :
  (forall k x, hd 0 x <> 0x30 -> je_x509 e k x = None) -> is_magic magic -> 0 < n < 2 ^ 32 -> N.of_nat (length alias) < 2 ^ 16 -> length stamp = 8%nat -> nth 4 stamp 0 <> 0x30 ->
  match parseJKS e (magic ++ [0; 0; 0; 2] ++ be_bytes 4 n ++ enc_trusted alias stamp c ++ post) storePass keyPass s p with Some (_, true, _) => False | _ => True end.
Proof.
  intros Hx Hm Hn Ha Hs H4. assert (Lm : length magic = 4%nat) by (destruct Hm as [-> | ->]; reflexivity). unfold parseJKS.
  set (tail := enc_trusted alias stamp c ++ post).
  rewrite (slice_at _ 0 4 [] magic ([0; 0; 0; 2] ++ be_bytes 4 n ++ tail)) by (reflexivity || (rewrite Lm; reflexivity)).
  rewrite (read32_at _ 8 (magic ++ [0; 0; 0; 2]) n tail); [|lia|rewrite <- app_assoc; reflexivity|rewrite app_length, Lm; reflexivity].
  rewrite (slice_at _ 4 4 magic [0; 0; 0; 2] (be_bytes 4 n ++ tail)) by (reflexivity || (rewrite Lm; reflexivity)).
  replace (negb (oid_eqb magic [254; 237; 254; 237]) && negb (oid_eqb magic [206; 206; 206; 206])) with false by (destruct Hm as [-> | ->]; reflexivity).
  cbv iota. change (negb (oid_eqb [0; 0; 0; 2] [0; 0; 0; 2])) with false. cbv iota.
  destruct (to_utf16 e storePass) as [[store16|]|]; [|exact I|exact I]. destruct s as [h k]. destruct (N.to_nat n) as [|m] eqn:En; [lia|]. cbn [parse_entries].
  set (data := magic ++ [0; 0; 0; 2] ++ be_bytes 4 n ++ tail). set (a := je_malloc e h).
  assert (Hentry : match parse_entry e data 12 keyPass a (ks_new h a 0 0, k) with Some (_, Some _) => False | _ => True end).
  { unfold parse_entry. rewrite (read32_at _ 12 (magic ++ [0; 0; 0; 2] ++ be_bytes 4 n) 2 (be_bytes 2 (N.of_nat (length alias)) ++ alias ++ stamp ++ enc_cert c ++ post));
      [|reflexivity|unfold data, tail, enc_trusted; rewrite <- !app_assoc; reflexivity|rewrite !app_length, be_bytes_length, Lm; reflexivity].
    change (2 =? 1) with false. change (2 =? 2) with true. cbv iota. unfold parse_cert.
    rewrite (read16_at _ _ (magic ++ [0; 0; 0; 2] ++ be_bytes 4 n ++ be_bytes 4 2) (N.of_nat (length alias)) (alias ++ stamp ++ enc_cert c ++ post));
      [|exact Ha|unfold data, tail, enc_trusted; rewrite <- !app_assoc; reflexivity|rewrite !app_length, !be_bytes_length, Lm; reflexivity].
    destruct (read32 data _) as [dl|]; [|exact I]. destruct (slice data _ dl) as [der|] eqn:Es; [|exact I].
    assert (Hd : hd 0 der <> 48).
    { set (pre := magic ++ [0; 0; 0; 2] ++ be_bytes 4 n ++ be_bytes 4 2 ++ be_bytes 2 (N.of_nat (length alias)) ++ alias ++ firstn 4 stamp).
      assert (Ed : data = pre ++ skipn 4 stamp ++ enc_cert c ++ post).
      { unfold data, pre, tail, enc_trusted. rewrite <- (firstn_skipn 4 stamp) at 1. rewrite <- !app_assoc. reflexivity. }
      rewrite Ed in Es. apply (slice_inv pre _ _ 0) in Es.
      2: { unfold pre. rewrite !app_length, !be_bytes_length, Lm, firstn_length, Hs. cbn [length]. lia. }
      destruct Es as [z [b [E [Hz _]]]]. destruct z; [|cbn [length] in Hz; lia]. cbn [app] in E.
      destruct der as [|d der]; [cbn; discriminate|].
      destruct stamp as [|s0 [|s1 [|s2 [|s3 [|s4 stamp]]]]]; try (cbn in Hs; discriminate). cbn [skipn app] in E. injection E as E _. cbn in *. congruence. }
    rewrite Hx by exact Hd. exact I. }
  destruct (parse_entry e data 12 keyPass a (ks_new h a 0 0, k)) as [[[h1 k1] [off|]]|]; [contradiction| |exact I].
  destruct (ks_free h1 (Some a)); exact I.
Qed.
End Any.
