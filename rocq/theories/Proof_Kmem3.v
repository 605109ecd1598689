(** Java key stores in memory, if no allocation fails. *)
From Coq Require Import List Lia Permutation.
Import ListNotations.
From Verif Require Import Base Lib Model_KeyStore Model_Utf16 Model_Utils Model_Jks Model_Kmem Spec_KeyStore Spec_Keylib Spec_Pkcs12 Spec_Jks Spec_Kmem Proof_KeyStore Proof_Keylib Proof_Pkcs12 Proof_Jks Proof_Kmem Proof_Kmem2.

Section Jks.
Variable malloc : nat -> kheap -> option nat.
Hypothesis HA : kallocator malloc.
Variable from : nat.
Notation full := (Proof_Kmem.full malloc from).
Notation tri := (Proof_Kmem.tri from).
Hypothesis Hfull : full.
Lemma tri_any U L A (m : KM A) F (post : A -> kheap -> Prop) : tri (~ full) False m F post -> tri U L m F post.
Proof. intros H n h Hn Hd Hp. specialize (H n h Hn Hd Hp). destruct (m (h, n)); [contradiction..|exact H]. Qed.
Lemma tri_new1 U L o F (post : option nat -> kheap -> Prop) : (forall p, post (Some p) ((p, o) :: F)) -> tri U L (knew malloc o) F post.
Proof. intros H. apply tri_new; [exact HA|auto|]. intros Hn. contradiction. Qed.
Lemma tri_try1 U L F (post : bool -> kheap -> Prop) : post true F -> tri U L (ktry malloc) F post.
Proof. intros H. apply tri_try; [exact H|]. intros Hn. contradiction. Qed.
Lemma tri_out (U L U' L' : Prop) A (m : KM A) F (post : A -> kheap -> Prop) : (U -> U') -> (L -> L') -> tri U L m F post -> tri U' L' m F post.
Proof. intros HU HL H n h Hn Hd Hp. specialize (H n h Hn Hd Hp). destruct (m (h, n)); [auto..|exact H]. Qed.
Ltac s1 := lazymatch goal with
  | |- Proof_Kmem.tri _ _ _ (knew _ _) _ _ => apply tri_new1; intros ?; cbv beta iota
  | |- Proof_Kmem.tri _ _ _ (ktry _) _ _ => apply tri_try1; cbv beta iota
  | _ => t1
  end.

(** ** Passwords *)
Definition opt_temp (p : option nat) : kheap := match p with Some p => [(p, KTemp)] | None => [] end.
Lemma free_temp U L p F (post : unit -> kheap -> Prop) : post tt F -> tri U L (kfree_opt p) (opt_temp p ++ F) post.
Proof. intros H. destruct p; cbn [opt_temp app]; s1; exact H. Qed.
Lemma conv_loop_tri : forall fuel cs ok size buf res acc F, (buf <> None \/ cs = []) -> res <> None ->
  tri False (conv_loop fuel cs ok size acc = None) (h_conv_loop malloc fuel cs ok size buf res acc) (opt_temp buf ++ F)
    (fun '(buf', r) F' => conv_loop fuel cs ok size acc = Some r /\ F' = opt_temp buf' ++ F).
Proof.
  induction fuel as [|fuel IH]; intros cs ok size buf res acc F Hb Hr; cbn [h_conv_loop conv_loop]; [apply tri_loop; reflexivity|].
  assert (K : tri False
    ((let '(o, r, s) := iconv_call cs ok size in
      match s with IcDone => Some (Some (acc ++ o)) | IcE2BIG => conv_loop fuel r ok (2 * size) (acc ++ o) | IcBad => Some None end) = None)
    (let '(o, r, s) := iconv_call cs ok size in
     acc <- match o with
            | [] => kret acc
            | _ => kderef buf ;;; match res with None => kret acc | Some _ => w <- ktry malloc ;; kret (if w : bool then acc ++ o else acc) end
            end ;;
     match s with
     | IcDone => kret (buf, Some acc)
     | IcBad => kret (buf, None)
     | IcE2BIG =>
         buf' <- knew malloc KTemp ;;
         match buf' with
         | None => h_conv_loop malloc fuel r ok (2 * size) None res acc
         | Some _ => kfree_opt buf ;;; h_conv_loop malloc fuel r ok (2 * size) buf' res acc
         end
     end) (opt_temp buf ++ F)
    (fun '(buf', r) F' => (let '(o, r, s) := iconv_call cs ok size in
      match s with IcDone => Some (Some (acc ++ o)) | IcE2BIG => conv_loop fuel r ok (2 * size) (acc ++ o) | IcBad => Some None end) = Some r /\ F' = opt_temp buf' ++ F)).
  { destruct (iconv_call_spec cs ok size) as [k [Hk [E _]]]. destruct (iconv_call cs ok size) as [[o r] s]. injection E as Eo Er Es.
    eapply tri_seq with (p := fun acc' F' => acc' = acc ++ o /\ F' = opt_temp buf ++ F).
    { destruct o as [|x o]; [s1; rewrite app_nil_r; auto|]. s1. apply tri_deref.
      destruct buf as [b|]; [|destruct Hb as [Hb| ->]; [contradiction|]; rewrite firstn_nil in Eo; discriminate].
      destruct res as [res|]; [|contradiction]. s1. s1. s1. auto. }
    cbv beta. intros acc' F' [-> ->]. destruct s.
    - s1. auto.
    - s1. s1. destruct buf as [b|]; cbn [opt_temp app].
      + s1. s1. apply (IH r ok (2 * size)%nat (Some p) res (acc ++ o) F); [left; discriminate|exact Hr].
      + s1. s1. apply (IH r ok (2 * size)%nat (Some p) res (acc ++ o) F); [left; discriminate|exact Hr].
    - s1. auto. }
  destruct cs as [|c cs]; [destruct ok; [s1; auto|exact K]|exact K].
Qed.

Context {spec grp : Type} (e : jks_env spec grp) (He : env_ok e).
Let Hmal : malloc_ok (je_malloc e) := proj1 He.
Let Hsha : forall x, length (je_sha1 e x) = 20%nat := proj1 (proj2 He).
Let Hnil : je_utf e [] = ([], true) := proj1 (proj2 (proj2 (proj2 He))).
Let Hattr : forall k x i, je_p8 e k x = Some i -> attrs_bytes (p8_attrs i) := proj2 (proj2 (proj2 (proj2 He))).

Lemma utf16_tri U p F : tri U False (h_toUTF16BE malloc (je_utf e p) (length p)) F
  (fun r F' => match r with
               | Some (d, p16) => to_utf16 e p = Some (Some p16) /\ F' = (d, KTemp) :: F
               | None => to_utf16 e p = Some None /\ F' = F
               end).
Proof.
  apply tri_any. pose proof (to_utf16_eq e He p) as Hold. unfold to_utf16, toUTF16BE in Hold |- *. unfold h_toUTF16BE.
  destruct (je_utf e p) as [cs ok] eqn:Eu. cbn [fst snd] in *.
  eapply tri_seq; [apply bio_new_tri, HA|]. cbv beta. intros [res|] F0; [|intros [_ H]; contradiction]. intros [b ->].
  assert (Hb : forall buf, buf <> None \/ cs = [] -> tri (~ full) False (cd <- knew malloc KTemp ;;
     match cd with
     | None => kfree_opt (Some res) ;;; kret None
     | Some cd =>
         '(buf, acc) <- h_conv_loop malloc (length cs + 3) cs ok (length p) buf (Some res) [] ;;
         match acc with
         | None => kfree cd ;;; kfree_opt buf ;;; bio_free (Some res) ;;; kret None
         | Some acc =>
             kfree_opt buf ;;; kfree cd ;;;
             match acc with
             | [] => bio_free (Some res) ;;; kret None
             | _ => dest <- knew malloc KTemp ;; d <- kderef dest ;; bio_free (Some res) ;;; kret (Some (d, acc))
             end
         end
     end) (opt_temp buf ++ (res, KBio b) :: (b, KTemp) :: F)
     (fun r F' => match r with
       | Some (d, p16) => match conv_loop (length cs + 3) cs ok (length p) [] with None => None | Some None => Some None | Some (Some []) => Some None | Some (Some r) => Some (Some r) end = Some (Some p16) /\ F' = (d, KTemp) :: F
       | None => match conv_loop (length cs + 3) cs ok (length p) [] with None => None | Some None => Some None | Some (Some []) => Some None | Some (Some r) => Some (Some r) end = Some None /\ F' = F
       end)).
  { intros buf Hbuf. apply tri_any. s1. s1.
    destruct (conv_loop (length cs + 3) cs ok (length p) []) as [r0|] eqn:Ec; [|discriminate].
    eapply tri_seq; [eapply tri_perm; [|eapply tri_out; [| |apply (conv_loop_tri (length cs + 3) cs ok (length p) buf (Some res) [] ((p0, KTemp) :: (res, KBio b) :: (b, KTemp) :: F) Hbuf ltac:(discriminate))]; [intros []|rewrite Ec; discriminate]]; perm|].
    rewrite Ec.
    cbv beta. intros [buf' r] F' [E ->]. injection E as ->. destruct r as [r|].
    - s1. apply free_temp. s1. s1. destruct r as [|x r].
      + eapply tri_seq; [apply bio_free_tri|]. cbv beta. intros _ F' ->. s1. auto.
      + s1. s1. s1. s1. eapply tri_seq; [eapply tri_perm; [|apply (bio_free_tri _ _ _ res b ((p1, KTemp) :: F))]; perm|]. cbv beta. intros _ F' ->. s1. auto.
    - s1. s1. s1. 
      apply free_temp. eapply tri_seq; [apply bio_free_tri|]. cbv beta. intros _ F' ->. s1. auto. }
  s1. apply tri_buffer; [exact HA|..].
  - intros buf _. apply (Hb (Some buf)). left. discriminate.
  - intros [E|E]; [|contradiction]. apply (Hb None). right. destruct p; [|cbn in E; lia]. congruence.
Qed.
Lemma hash_tri U L F (post : bool -> kheap -> Prop) : post true F -> tri U L (h_hash malloc) F post.
Proof. intros H. unfold h_hash. do 9 s1. exact H. Qed.

(** ** Simulation: [old] is the answer of Model_Jks, whose store at [a] holds what the one at [q] does. *)
Definition sim {X} (old : option (jst * X)) (a q : nat) (m : KM (nat * X)) (c F : kheap) : Prop :=
  tri (old = None) False m (c ++ F)
    (fun '(k', r) F' => exists h' lk lc c', old = Some ((h', k'), r) /\ holds h' a lk lc /\ stores q (map Some lk) (map Some lc) c' /\ F' = c' ++ F).
Lemma sim_ret X (x : X) h k a q lk lc c F : holds h a lk lc -> stores q (map Some lk) (map Some lc) c -> sim (Some ((h, k), x)) a q (kret (k, x)) c F.
Proof. intros H1 H2. unfold sim. s1. exists h, lk, lc, c. auto. Qed.
Lemma sim_undef X a q c F : sim (@None (jst * X)) a q kundef c F.
Proof. apply tri_undef. reflexivity. Qed.

Lemma old_cert h a lk lc x : holds h a lk lc ->
  exists h2 h3 h4, ks_set (ks_new h (je_malloc e h) 0 1) Certs (je_malloc e h) 0 (Ptr x) = Some h2 /\ ks_append h2 a (je_malloc e h) = Some h3 /\
    ks_free h3 (Some (je_malloc e h)) = Some h4 /\ holds h4 a lk (lc ++ [x]).
Proof.
  intros Hh. set (t := je_malloc e h). pose proof (Hmal h) as Hf. fold t in Hf.
  destruct (new_filled h t 0 1) as [Nk Nc]. destruct (fill_one _ _ _ _ _ x Nc) as [h2 [E2 [F2 [O2 S2]]]]. cbn [length app] in *.
  assert (Nk' : filled h2 t Keys [] 0) by (eapply filled_other; [exact O2|discriminate|exact Nk]).
  assert (R2 : rest h h2 t).
  { split; [|eapply same_freed_trans; [|exact S2]; split; reflexivity].
    intros j Hj. rewrite (only_store (ks_new h t 0 1) h2 t), new_other; auto. eapply only_weak; [|exact O2]. cbn. tauto. }
  pose proof (holds_ne _ _ _ _ _ Hh Hf) as Hne.
  destruct (attach h h2 a t lk lc [] [x] Hne Hf R2 Hh (conj Nk' F2)) as [h3 [h4 [E3 [E4 [H4 R4]]]]]. rewrite app_nil_r in H4. exists h2, h3, h4. auto.
Qed.
Lemma cert_sim data off a q h k lk lc c F : holds h a lk lc -> stores q (map Some lk) (map Some lc) c ->
  sim (parse_cert e data off a (h, k)) a q (h_parse_cert malloc e data off q k) c F.
Proof.
  intros Hh Hs. unfold parse_cert, h_parse_cert. destruct (read16 data off) as [tl|]; [|apply sim_undef].
  destruct (read32 data _) as [dl|]; [|apply sim_undef]. destruct (slice data _ dl) as [der|]; [|apply sim_undef].
  destruct (je_x509 e k der) as [x|]; cbn [option_map kmake].
  - destruct (old_cert h a lk lc x Hh) as [h2 [h3 [h4 [E2 [E3 [E4 H4]]]]]]. rewrite E2, E3, E4.
    unfold sim. s1. s1. apply tri_any. eapply tri_seq; [apply ks_new_tri, HA|]. cbv beta. intros t F1 [c2 [S2 ->]].
    eapply tri_seq; [eapply tri_perm; [|apply (set_cert_tri _ from t [] [] [] c2 p x (c ++ F) S2)]; perm|]. cbv beta. intros _ F2 [c3 [S3 ->]].
    eapply tri_perm; [|eapply (attach_tri malloc HA from q t _ _ _ _ c c3 F); [exact Hs|exact S3|]]; [perm|]. intros c' S'.
    s1. exists h4, lk, (lc ++ [x]), c'. split; [reflexivity|]. split; [exact H4|]. rewrite map_app. rewrite app_nil_r in S'. auto.
  - unfold sim. s1. s1. s1. exists h, lk, lc, c. auto.
Qed.
Lemma certs_sim data a q F : forall n off h k lk lc c, holds h a lk lc -> stores q (map Some lk) (map Some lc) c ->
  sim (parse_certs e n data off a (h, k)) a q (h_parse_certs malloc e n data off q k) c F.
Proof.
  induction n as [|n IH]; intros off h k lk lc c Hh Hs; cbn [parse_certs h_parse_certs]; [eapply sim_ret; eassumption|].
  unfold sim. eapply tri_seq; [eapply tri_out; [| |apply (cert_sim data off a q h k lk lc c F Hh Hs)]; [intros ->; reflexivity|auto]|].
  cbv beta. intros [k1 [off1|]] F' [h1 [lk1 [lc1 [c1 [E [H1 [S1 ->]]]]]]]; rewrite E; [eapply IH; eassumption|]. eapply sim_ret; eassumption.
Qed.

Lemma rounds_tri pwd16 decrypted F : forall r digest rem, (decrypted <> None \/ r = O) ->
  tri (kp_rounds e r pwd16 digest rem = None) False (h_rounds malloc e r pwd16 digest rem decrypted) F
    (fun o F' => o = kp_rounds e r pwd16 digest rem /\ o <> None /\ F' = F).
Proof.
  induction r as [|r IH]; intros digest rem Hd; cbn [h_rounds kp_rounds]; [s1; repeat split; discriminate|].
  s1. apply hash_tri. cbn [negb]. destruct (kp_inner _ rem) as [[o rem']|]; [|apply tri_undef; reflexivity].
  s1. apply tri_deref. destruct decrypted as [d|]; [|destruct Hd; [contradiction|discriminate]].
  eapply tri_seq; [eapply tri_out; [| |apply IH; left; discriminate]; [intros ->; reflexivity|auto]|].
  cbv beta. intros t F' [-> [Hn ->]]. s1. destruct (kp_rounds e r pwd16 _ rem'); [|contradiction]. repeat split. discriminate.
Qed.
Lemma fkp_sim data pwd16 a q h k lk lc c F : holds h a lk lc -> stores q (map Some lk) (map Some lc) c ->
  sim (from_key_protector e data pwd16 a (h, k)) a q (h_from_key_protector malloc e data pwd16 q k) c F.
Proof.
  intros Hh Hs. unfold from_key_protector, kp_decrypt, h_from_key_protector. cbv zeta.
  destruct (N.ltb_spec (N.of_nat (length data)) 40) as [Hlt|Hge]; [apply sim_undef|].
  set (encLen := N.of_nat (length data) - 20 - 20).
  set (rounds := if 0 <? encLen mod 20 then 1 + encLen / 20 else encLen / 20).
  assert (K : forall decrypted, decrypted <> None \/ encLen = 0 -> tri
     (match match kp_rounds e (N.to_nat rounds) pwd16 (firstn 20 data) (firstn (N.to_nat encLen) (skipn 20 data)) with
            | Some decrypted => if cmp_bytes (two_hash e pwd16 decrypted) (skipn (N.to_nat (20 + encLen)) data) then Some (Some decrypted) else Some None
            | None => None end with
      | Some (Some decrypted) =>
          match keysFromPKCS8 (je_attr e) (je_malloc e) h (je_p8 e k decrypted) None with
          | Some (h1, r, tks) =>
              if r then match tks with
                        | Some t => match ks_append h1 a t with
                                    | Some h2 => match ks_free h2 (Some t) with Some h3 => Some ((h3, S k), true) | None => None end
                                    | None => None end
                        | None => None end
              else match ks_free h1 tks with Some h2 => Some ((h2, S k), false) | None => None end
          | None => None end
      | Some None => Some ((h, k), false)
      | None => None end = None) False
     (plain <- h_rounds malloc e (N.to_nat rounds) pwd16 (firstn 20 data) (firstn (N.to_nat encLen) (skipn 20 data)) decrypted ;;
      match plain with
      | None => kfree_opt decrypted ;;; kret (k, false)
      | Some plain =>
          ok <- h_hash malloc ;;
          if negb (ok && cmp_bytes (two_hash e pwd16 plain) (skipn (N.to_nat (20 + encLen)) data)) then kfree_opt decrypted ;;; kret (k, false)
          else
            tks <- h_keysFromPKCS8 malloc (je_attr e) (je_p8 e k plain) ;;
            match tks with
            | Some t => h_append malloc q t ;;; h_ks_free (Some t) ;;; kfree_opt decrypted ;;; kret (S k, true)
            | None => h_ks_free None ;;; kfree_opt decrypted ;;; kret (S k, false)
            end
      end) (opt_temp decrypted ++ c ++ F)
     (fun '(k', r) F' => exists h' lk lc c',
       match match kp_rounds e (N.to_nat rounds) pwd16 (firstn 20 data) (firstn (N.to_nat encLen) (skipn 20 data)) with
            | Some decrypted => if cmp_bytes (two_hash e pwd16 decrypted) (skipn (N.to_nat (20 + encLen)) data) then Some (Some decrypted) else Some None
            | None => None end with
      | Some (Some decrypted) =>
          match keysFromPKCS8 (je_attr e) (je_malloc e) h (je_p8 e k decrypted) None with
          | Some (h1, r, tks) =>
              if r then match tks with
                        | Some t => match ks_append h1 a t with
                                    | Some h2 => match ks_free h2 (Some t) with Some h3 => Some ((h3, S k), true) | None => None end
                                    | None => None end
                        | None => None end
              else match ks_free h1 tks with Some h2 => Some ((h2, S k), false) | None => None end
          | None => None end
      | Some None => Some ((h, k), false)
      | None => None end = Some ((h', k'), r) /\ holds h' a lk lc /\ stores q (map Some lk) (map Some lc) c' /\ F' = c' ++ F)).
  { intros decrypted Hd. eapply tri_seq; [eapply tri_out; [| |apply rounds_tri]|].
    - intros ->. reflexivity.
    - auto.
    - destruct Hd as [Hd|Hd]; [auto|]. right. unfold rounds. rewrite Hd. reflexivity.
    - cbv beta. intros o F' [-> [Hn ->]]. destruct (kp_rounds e _ _ _ _) as [plain|]; [|contradiction]. clear Hn.
      s1. apply hash_tri. cbn [andb]. destruct (cmp_bytes _ _); cbn [negb].
      2: { s1. apply free_temp. s1. exists h, lk, lc, c. auto. }
      eapply tri_seq; [apply tri_any, keys_tri, HA|]. cbv beta. intros [t|] F'.
      + intros [i [l [ct [Ei [[k1 [E1 El]] [St ->]]]]]]. destruct El as [-> |[El _]]; [|contradiction]. rewrite Ei.
        destruct (keysFromPKCS8_ok (je_attr e) (je_malloc e) h i k1 None Hmal E1) as [h1 [t0 [E2 [-> [Hn [Fk [Fc [O S0]]]]]]]]. rewrite E2.
        pose proof (holds_ne _ _ _ _ _ Hh Hn) as Hne.
        destruct (attach h h1 a _ lk lc _ [] Hne Hn (conj O S0) Hh (conj Fk Fc)) as [h2 [h3 [E3 [E4 [H5 R3]]]]]. rewrite E3, E4.
        apply tri_any. eapply tri_perm; [|eapply (attach_tri malloc HA from q t _ _ _ _ c ct (opt_temp decrypted ++ F)); [exact Hs|exact St|]]; [perm|].
        intros c' S'. s1. eapply tri_perm; [|apply (free_temp _ _ decrypted (c' ++ F))]; [perm|]. s1.
        exists h3, (lk ++ k1 :: match pkeyFromAttributes (je_attr e) (p8_attrs i) with Some k0 => [k0] | None => [] end), lc, c'.
        split; [reflexivity|]. rewrite app_nil_r in H5. split; [exact H5|]. rewrite !app_nil_r in S'. rewrite map_app. auto.
      + intros [-> [Hnm|Hnm]]; [|contradiction]. s1. apply tri_bind, tri_undef. unfold not_made in Hnm.
        destruct (je_p8 e k plain) as [i|]; [unfold keysFromPKCS8; rewrite Hnm; reflexivity|reflexivity]. }
  unfold sim. s1. apply tri_buffer; [exact HA|..].
  - intros p _. apply (K (Some p)). left. discriminate.
  - intros [E|E]; [|contradiction]. apply (K None). right. lia.
Qed.

Lemma decrypt_sim data pass a q h k lk lc c F : holds h a lk lc -> stores q (map Some lk) (map Some lc) c ->
  sim (decrypt_key e data pass a (h, k)) a q (h_decrypt_key malloc e data pass q k) c F.
Proof.
  intros Hh Hs. unfold decrypt_key, h_decrypt_key. unfold sim. eapply tri_seq; [apply utf16_tri|]. cbv beta. intros [[p p16]|] F' [E ->]; rewrite E.
  2: { eapply sim_ret; eassumption. }
  destruct (je_sig e data) as [[algo kd]|]; [|do 3 s1; exists h, lk, lc, c; auto].
  do 8 s1.
  eapply tri_seq with (p := fun '(k', r) F' => exists h' lk lc c',
    (if oid_eqb algo keyProtectorOID then from_key_protector e kd p16 a (h, k) else if oid_eqb algo pbes1OID then from_pbes1 (h, k) else Some ((h, k), true)) = Some ((h', k'), r) /\
    holds h' a lk lc /\ stores q (map Some lk) (map Some lc) c' /\ F' = c' ++ (p2, KTemp) :: (p1, KTemp) :: (p0, KTemp) :: (p, KTemp) :: F).
  { destruct (oid_eqb algo keyProtectorOID).
    - eapply tri_perm; [|apply (fkp_sim kd p16 a q h k lk lc c ((p2, KTemp) :: (p1, KTemp) :: (p0, KTemp) :: (p, KTemp) :: F) Hh Hs)]. perm.
    - s1. s1. destruct (oid_eqb algo pbes1OID);
        (apply (tri_retp _ _ _ _ _ _ (c ++ (p2, KTemp) :: (p1, KTemp) :: (p0, KTemp) :: (p, KTemp) :: F)); [perm|]); exists h, lk, lc, c; auto. }
  cbv beta. intros [k' r] F' [h' [lk' [lc' [c' [E' [H' [S' ->]]]]]]]. do 9 s1. exists h', lk', lc', c'. auto.
Qed.

Lemma key_sim data off pass a q h k lk lc c F : holds h a lk lc -> stores q (map Some lk) (map Some lc) c ->
  sim (parse_key e data off pass a (h, k)) a q (h_parse_key malloc e data off pass q k) c F.
Proof.
  intros Hh Hs. unfold parse_key, h_parse_key. destruct (read16 data off) as [nl|]; [|apply sim_undef].
  destruct (read32 data (off + 2 + nl + 8)) as [dl|]; [|apply sim_undef]. destruct (read32 data _) as [cn|]; [|apply sim_undef]. destruct (slice data _ dl) as [blob|]; [|apply sim_undef].
  unfold sim. eapply tri_seq; [eapply tri_out; [| |apply (decrypt_sim blob pass a q h k lk lc c F Hh Hs)]; [intros ->; reflexivity|auto]|].
  cbv beta. intros [k1 [|]] F' [h1 [lk1 [lc1 [c1 [E [H1 [S1 ->]]]]]]]; rewrite E; [eapply certs_sim; eassumption|]. eapply sim_ret; eassumption.
Qed.
Lemma entry_sim data off pass a q h k lk lc c F : holds h a lk lc -> stores q (map Some lk) (map Some lc) c ->
  sim (parse_entry e data off pass a (h, k)) a q (h_parse_entry malloc e data off pass q k) c F.
Proof.
  intros Hh Hs. unfold parse_entry, h_parse_entry. destruct (read32 data off) as [tag|]; [|apply sim_undef].
  destruct (tag =? 1); [eapply key_sim; eassumption|]. destruct (tag =? 2); [eapply cert_sim; eassumption|]. eapply sim_ret; eassumption.
Qed.
Lemma entries_sim data pass a q F : forall n off h k lk lc c, holds h a lk lc -> stores q (map Some lk) (map Some lc) c ->
  sim (parse_entries e n data off pass a (h, k)) a q (h_parse_entries malloc e n data off pass q k) c F.
Proof.
  induction n as [|n IH]; intros off h k lk lc c Hh Hs; cbn [parse_entries h_parse_entries]; [eapply sim_ret; eassumption|].
  unfold sim. eapply tri_seq; [eapply tri_out; [| |apply (entry_sim data off pass a q h k lk lc c F Hh Hs)]; [intros ->; reflexivity|auto]|].
  cbv beta. intros [k1 [off1|]] F' [h1 [lk1 [lc1 [c1 [E [H1 [S1 ->]]]]]]]; rewrite E; [eapply IH; eassumption|]. eapply sim_ret; eassumption.
Qed.

(** *** The whole store *)
Lemma holds_new h : holds (ks_new h (je_malloc e h) 0 0) (je_malloc e h) [] [].
Proof. destruct (new_filled h (je_malloc e h) 0 0). split; assumption. Qed.
Definition jks_done (old : option (jst * bool * ptr)) (F : kheap) (x : nat * bool * option nat) (F' : kheap) : Prop :=
  let '(k', r, o) := x in
    if r : bool then exists h' a q lk lc c, old = Some ((h', k'), r, Some a) /\ o = Some q /\ holds h' a lk lc /\ stores q (map Some lk) (map Some lc) c /\ F' = c ++ F
    else (forall s p, old <> Some (s, true, p)) /\ (F' = F \/ exists d, F' = (d, KTemp) :: F).
Lemma jks_tri data sp kp h k p F : tri (parseJKS e data sp kp (h, k) p = None) False (h_parseJKS malloc e data sp kp k) F (jks_done (parseJKS e data sp kp (h, k) p) F).
Proof.
  unfold parseJKS, h_parseJKS. destruct (slice data 0 4) as [magic|]; [|apply tri_undef; reflexivity]. destruct (read32 data 8) as [n|]; [|apply tri_undef; reflexivity].
  destruct (negb _ && negb _); [s1; cbn; split; [discriminate|auto]|].
  destruct (slice data 4 4) as [version|]; [|apply tri_undef; reflexivity]. destruct (negb _); [s1; cbn; split; [discriminate|auto]|].
  eapply tri_seq; [apply utf16_tri|]. cbv beta. intros [[d p16]|] F' [E ->]; rewrite E; [|s1; cbn; split; [discriminate|auto]].
  eapply tri_seq; [apply tri_any, ks_new_tri, HA|]. cbv beta. intros q F1 [c [Hs ->]].
  eapply tri_seq; [eapply tri_out; [| |apply (entries_sim data kp (je_malloc e h) q ((d, KTemp) :: F) (N.to_nat n) 12 _ k [] [] c (holds_new h) Hs)]; [intros ->; reflexivity|auto]|].
  cbv beta. intros [k1 o] F' [h1 [lk [lc [c' [E1 [H1 [S1 ->]]]]]]]. rewrite E1. destruct o as [off|].
  - destruct (slice data 0 off) as [head|]; [|apply tri_undef; reflexivity]. s1. apply hash_tri. cbn [negb]. s1. s1.
    destruct (cmp_digest (white_hash e p16 head) data off) as [[|]|]; [..|apply tri_undef; reflexivity].
    + s1. cbn [jks_done]. exists h1, (je_malloc e h), q, lk, lc, c'. auto.
    + eapply tri_seq; [apply tri_any; eapply ks_free_tri; exact S1|]. cbv beta. intros _ F' ->. s1. cbn [jks_done]. split; [intros ? ?; destruct (ks_free h1 (Some (je_malloc e h))); discriminate|auto].
  - eapply tri_seq; [apply tri_any; eapply ks_free_tri; exact S1|]. cbv beta. intros _ F' ->. s1. cbn [jks_done]. split; [intros ? ?; destruct (ks_free h1 (Some (je_malloc e h))); discriminate|eauto].
Qed.
(** An entry that is refused. *)
Lemma jks_refused_tri data sp p16 kp h k F magic n s' : slice data 0 4 = Some magic -> is_magic magic -> read32 data 8 = Some n -> slice data 4 4 = Some [0; 0; 0; 2] -> password16 e sp p16 ->
  parse_entries e (N.to_nat n) data 12 kp (je_malloc e h) (ks_new h (je_malloc e h) 0 0, k) = Some (s', None) ->
  tri False False (h_parseJKS malloc e data sp kp k) F (fun '(_, r, _) F' => r = false /\ exists d, F' = (d, KTemp) :: F).
Proof.
  intros E1 Hm E2 E3 Hp Ho. unfold h_parseJKS. rewrite E1, E2, E3.
  replace (negb (oid_eqb magic [254; 237; 254; 237]) && negb (oid_eqb magic [206; 206; 206; 206])) with false by (destruct Hm as [-> | ->]; reflexivity).
  cbv iota. change (negb (oid_eqb [0; 0; 0; 2] [0; 0; 0; 2])) with false. cbv iota.
  eapply tri_seq; [apply utf16_tri|]. cbv beta. rewrite (to_utf16_ok e He _ _ Hp). intros [[d p1]|] F' [E ->]; [|discriminate].
  eapply tri_seq; [apply tri_any, ks_new_tri, HA|]. cbv beta. intros q F1 [c [Hs ->]].
  eapply tri_seq; [eapply tri_out; [| |apply (entries_sim data kp (je_malloc e h) q ((d, KTemp) :: F) (N.to_nat n) 12 _ k [] [] c (holds_new h) Hs)]; [rewrite Ho; discriminate|auto]|].
  cbv beta. intros [k1 o] F' [h1 [lk [lc [c' [E4 [H1 [S1 ->]]]]]]]. rewrite Ho in E4. injection E4 as -> <-.
  eapply tri_seq; [apply tri_any; eapply ks_free_tri; exact S1|]. cbv beta. intros _ F' ->. s1. eauto.
Qed.
End Jks.
