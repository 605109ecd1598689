(** The statements about arithmetic with failing allocations. *)
From Coq Require Import ZArith List Lia.
Import ListNotations.
From Verif Require Import Base Model_Params Model_Gf2m Model_Compress Model_Ec Model_Utils Model_Curves Model_Sign Model_Asn1 Model_Pmeth Model_Key Model_Ameth Model_Ctx Model_Oom Spec_Ctx Spec_Oom Spec_Gf2m Spec_Compress Spec_Curves Spec_Key Spec_Sign
  Proof_Curves Proof_Curves2 Proof_Curves3 Proof_Key Proof_Life Proof_Sign2 Proof_Ctx6 Proof_Oom.
Open Scope N_scope.

Section Facts.
Variable malloc : nat -> heap -> option nat.
Hypothesis HA : allocator malloc.
Lemma full_all n : never_fails malloc -> full malloc n.
Proof. intros H k h _. apply H. Qed.
Lemma inst U L A (m : M A) h n post : tri n U L m h post -> match m (h, n) with Undef => U | Loop => L | Ret (a, (h', n')) => post a h' end.
Proof. intros H. specialize (H n (le_n n)). destruct (m (h, n)) as [| |[a [h' n']]]; [exact H..|apply H]. Qed.

Lemma expand_opposite solve s c h n r h' n' : 1 < c_p c -> h_expand malloc solve s c (h, n) = Ret (r, (h', n')) ->
  h' = h /\ (r = None \/ exists P, expand solve s c = Some P /\ (r = Some P \/ r = Some (pneg P))).
Proof.
  intros Hp E. pose proof (inst _ _ _ _ _ n _ (expand_tri malloc HA n solve s c h)) as T. rewrite E in T. destruct T as [-> T]. split; [reflexivity|].
  destruct r as [Q|]; [|auto]. right. destruct T as [T|[_ [T|T]]]; [exists Q; auto|discriminate|]. symmetry in T. destruct (flipped_neg _ _ _ _ Hp T) as [P [E1 ->]]. exists P. auto.
Qed.
Lemma expand_enough solve s c h n : never_fails malloc -> exists n', h_expand malloc solve s c (h, n) = Ret (expand solve s c, (h, n')).
Proof.
  intros F. pose proof (inst _ _ _ _ _ n _ (expand_tri malloc HA n solve s c h)) as T. apply (full_all n) in F. destruct (h_expand _ _ _ _ _) as [| |[r [h' n']]]; [contradiction|destruct T|].
  destruct T as [-> [-> |[N0 _]]]; [eauto|contradiction].
Qed.
Lemma compress_right c P len h n r h' n' : h_compress malloc c P len (h, n) = Ret (r, (h', n')) -> h' = h /\ (r = None \/ r = compress c P len).
Proof.
  intros E. pose proof (inst _ _ _ _ _ n _ (compress_tri malloc HA n c P len h)) as T. rewrite E in T. destruct T as [-> [T|[_ T]]]; auto.
Qed.
Lemma compress_enough c P len h n : never_fails malloc -> exists n', h_compress malloc c P len (h, n) = Ret (compress c P len, (h, n')).
Proof.
  intros F. pose proof (inst _ _ _ _ _ n _ (compress_tri malloc HA n c P len h)) as T. apply (full_all n) in F. destruct (h_compress _ _ _ _ _) as [| |[r [h' n']]]; [contradiction|destruct T|].
  destruct T as [-> [-> |[N0 _]]]; [eauto|contradiction].
Qed.
Lemma sign_right fuel key tbs src h n : h_do_sign malloc fuel key tbs src (h, n) <> Undef /\
  forall r h' n', h_do_sign malloc fuel key tbs src (h, n) = Ret (r, (h', n')) -> h' = h /\ forall sig, r = Some sig -> do_sign fuel key tbs src = Done sig.
Proof.
  pose proof (inst _ _ _ _ _ n _ (sign_tri malloc HA n fuel key tbs src h)) as T. split; [intros E; rewrite E in T; exact T|]. intros r h' n' E. rewrite E in T. destruct T as [-> T]. split; [reflexivity|]. intros sig ->.
  destruct T as [[_ T]|[_ T]]; [|discriminate]. destruct (do_sign fuel key tbs src); [discriminate..|]. injection T as ->. reflexivity.
Qed.
Lemma sign_enough fuel key tbs src h n : never_fails malloc ->
  match do_sign fuel key tbs src with
  | Running => h_do_sign malloc fuel key tbs src (h, n) = Loop
  | Failed => exists n', h_do_sign malloc fuel key tbs src (h, n) = Ret (None, (h, n'))
  | Done sig => exists n', h_do_sign malloc fuel key tbs src (h, n) = Ret (Some sig, (h, n'))
  end.
Proof.
  intros F. pose proof (inst _ _ _ _ _ n _ (sign_tri malloc HA n fuel key tbs src h)) as T. apply (full_all n) in F. destruct (h_do_sign _ _ _ _ _ _) as [| |[r [h' n']]]; [destruct T|..].
  - destruct T as [-> |[N0 _]]; [reflexivity|contradiction].
  - destruct T as [-> [[NR ->]|[N0 _]]]; [|contradiction]. destruct (do_sign fuel key tbs src); [contradiction|..]; eexists; reflexivity.
Qed.
Lemma verify_right key tbs sig h n : exists b n', h_do_verify malloc key tbs sig (h, n) = Ret (b, (h, n')) /\ (b = true -> do_verify key tbs sig = true) /\ (never_fails malloc -> b = do_verify key tbs sig).
Proof.
  pose proof (inst _ _ _ _ _ n _ (verify_tri malloc HA n key tbs sig h)) as T. destruct (h_do_verify _ _ _ _ _) as [| |[b [h' n']]]; [destruct T..|]. destruct T as [-> T].
  exists b, n'. split; [reflexivity|]. destruct T as [-> |[N0 ->]]; split; auto; [discriminate|]. intros F. destruct (N0 (full_all n F)).
Qed.
Lemma public_right key h n : exists b k n', h_do_add_public malloc key (h, n) = Ret ((b, k), (h, n')) /\
  (if b then add_public_key key = Some k else k = key) /\ (never_fails malloc -> b = match add_public_key key with Some _ => true | None => false end).
Proof.
  pose proof (inst _ _ _ _ _ n _ (add_tri malloc HA n False False key h)) as T. destruct (h_do_add_public _ _ _) as [| |[[b k] [h' n']]]; [destruct T..|]. destruct T as [-> T].
  exists b, k, n'. split; [reflexivity|]. destruct T as [T|[N0 [= -> ->]]]; [|split; [reflexivity|intros F; destruct (N0 (full_all n F))]]. destruct (add_public_key key); injection T as -> ->; auto.
Qed.
Lemma generate_right fuel key src h n : h_do_generate malloc fuel key src (h, n) <> Undef /\
  (forall b k h' n', h_do_generate malloc fuel key src (h, n) = Ret ((b, k), (h', n')) -> h' = h /\
     if b then generate_key fuel key src = Done k else ek_group k = ek_group key /\ ek_pub k = ek_pub key) /\
  (never_fails malloc -> forall k, generate_key fuel key src = Done k -> exists n', h_do_generate malloc fuel key src (h, n) = Ret ((true, k), (h, n'))) /\
  (h_do_generate malloc fuel key src (h, n) = Loop -> generate_key fuel key src = Running).
Proof.
  pose proof (inst _ _ _ _ _ n _ (generate_tri malloc HA n fuel key src h)) as T. destruct (h_do_generate _ _ _ _ _) as [| |[[b k] [h' n']]]; [destruct T|..].
  - split; [discriminate|]. split; [discriminate|]. split; [intros _ k E; congruence|auto].
  - destruct T as [-> T]. split; [discriminate|]. repeat split; try discriminate.
    + congruence.
    + injection H as <- <- <- <-. destruct T as [[NR T]|[N0 [T1 T2]]].
      * destruct (generate_key fuel key src) as [| |k']; injection T as -> ->; auto.
      * cbn in T1, T2. subst b. destruct T2 as [-> |[prk [_ ->]]]; auto.
    + intros F k' E. destruct T as [[NR T]|[N0 _]]; [|destruct (N0 (full_all n F))]. rewrite E in T. injection T as -> ->. eauto.
Qed.
Lemma curve_right nid h n : exists r h' n', h_group_from_nid malloc nid (h, n) = Ret (r, (h', n')) /\
  match r with
  | None => h' = h /\ (never_fails malloc -> group_from_nid nid = None)
  | Some q => exists g, group_from_nid nid = Some g /\ h' = (q, OGroup (Binary g)) :: h /\ live h q = None
  end.
Proof.
  pose proof (inst _ _ _ _ _ n _ (nid_tri malloc HA n False False nid h)) as T. destruct (h_group_from_nid _ _ _) as [| |[r [h' n']]]; [destruct T..|]. exists r, h', n'. split; [reflexivity|].
  destruct T as [[-> [-> T]]|[q [g [-> [-> [HL E]]]]]]; [|eauto]. split; [reflexivity|]. intros F. destruct T as [T|T]; [exact T|destruct (T (full_all n F))].
Qed.
Lemma recognise_right g h n : exists nid n', h_curve_nid malloc g (h, n) = Ret (nid, (h, n')) /\ (nid = curve_nid_from_group g \/ nid = 0%Z) /\ (never_fails malloc -> nid = curve_nid_from_group g).
Proof.
  pose proof (inst _ _ _ _ _ n _ (curve_nid_tri malloc HA n False False g h)) as T. destruct (h_curve_nid _ _ _) as [| |[r [h' n']]]; [destruct T..|]. destruct T as [-> T]. exists r, n'. split; [reflexivity|].
  destruct T as [-> |[N0 ->]]; auto. split; [auto|]. intros F. destruct (N0 (full_all n F)).
Qed.
Lemma custom_opposite solve spec le h n r h' n' : h_group_from_asn1 malloc solve spec le (h, n) = Ret (r, (h', n')) ->
  match r with
  | None => h' = h
  | Some q => exists g0 G, group_from_asn1 solve spec le = Some g0 /\ (G = g_gen g0 \/ G = pneg (g_gen g0)) /\
      h' = (q, OGroup (Binary (GROUP (g_curve g0) G (g_order g0) (g_cofactor g0)))) :: h /\ live h q = None
  end.
Proof.
  intros E. pose proof (inst _ _ _ _ _ n _ (asn1_tri malloc HA n solve spec le h)) as T. rewrite E in T. destruct T as [[-> [-> _]]|[q [g [-> [-> [HL T]]]]]]; [reflexivity|].
  destruct T as [T|[_ T]].
  - exists g, (g_gen g). destruct g; cbn; auto.
  - apply turned_neg in T. destruct T as [g0 [E0 ->]]. exists g0, (pneg (g_gen g0)). auto.
Qed.
Lemma custom_enough solve spec le h n : never_fails malloc ->
  match group_from_asn1 solve spec le with
  | None => exists n', h_group_from_asn1 malloc solve spec le (h, n) = Ret (None, (h, n'))
  | Some g => exists q n', h_group_from_asn1 malloc solve spec le (h, n) = Ret (Some q, ((q, OGroup (Binary g)) :: h, n'))
  end.
Proof.
  intros F. pose proof (inst _ _ _ _ _ n _ (asn1_tri malloc HA n solve spec le h)) as T. apply (full_all n) in F. destruct (h_group_from_asn1 _ _ _ _ _) as [| |[r [h' n']]]; [contradiction|destruct T|].
  destruct T as [[-> [-> [-> |T]]]|[q [g [-> [-> [HL [-> |[T _]]]]]]]]; try contradiction; eauto.
Qed.
(** Decoding what was written gives the same curve. *)
Lemma written_same solve g sb le h n q v h' n' : well_formed g -> api_group g -> good_solver (c_p (g_curve g)) solve -> sbox_ok sb -> g_cofactor g = 1 ->
  h_from_key malloc g sb le (h, n) = Ret (Some (q, v), (h', n')) -> h' = (q, OTemp) :: h /\
  exists sb', effective sb' = effective sb /\ key_from_asn1 solve v le = Some (DKEY (ECKEY (Some (Binary g)) None None) sb').
Proof.
  intros W AG S SB C1 E. pose proof (inst _ _ _ _ _ n _ (from_key_tri malloc HA n g sb le None None h)) as T. rewrite E in T. destruct T as [[T _]|[q' [v' [T1 [-> [HL T]]]]]]; [discriminate|]. injection T1 as <- <-. split; [reflexivity|].
  exists (stored sb). split; [apply stored_effective|]. fold (stored sb) in T. destruct T as [T|[_ [c [EC ->]]]].
  - destruct (params_back solve g None None sb le v W AG S SB T) as [_ [g' [G K]]]. rewrite (Proof_Key2.one_same g g' C1 G) in K. exact K.
  - unfold key_from_asn1. cbn [ap_sbox ap_curve]. destruct (custom_back solve g le c W AG S EC) as [-> _].
    assert (SO : match stored sb with Some s => length s = 64%nat | None => True end).
    { destruct sb as [s|]; [|exact I]. cbn in *. destruct (is_default_sbox s); [exact I|]. apply SB. }
    pose proof (stored_same sb) as X. destruct (stored sb) as [s|].
    + rewrite SO. cbn [Nat.eqb negb]. cbn in X. rewrite X. unfold cofactor_one. destruct g as [cc gg oo ff]. cbn in *. subst ff. reflexivity.
    + unfold cofactor_one. destruct g as [cc gg oo ff]. cbn in *. subst ff. reflexivity.
Qed.
End Facts.

(** One failing allocation. *)
Lemma only_full k : full (fails_at k) (S k).
Proof. intros n h Hn. unfold fails_at, some_malloc. destruct (Nat.eqb_spec n k); [lia|discriminate]. Qed.
Lemma only_alloc k : allocator (fails_at k).
Proof. apply above_allocator. Qed.
Lemma explicit nid g le h : group_from_nid nid = Some g -> exists c o q n', h_from_key (fails_at 1) g None le (h, 0%nat) = Ret (Some (q, PARAMS (Custom c) None), ((q, OTemp) :: h, n')) /\
  asn1_from_key (DKEY (ECKEY (Some (Binary g)) None None) None) le = Ok (PARAMS (Named o) None) /\ group_from_asn1 solve_quad c le = Some g.
Proof.
  intros E. assert (R : (1160 <= nid <= 1169)%Z). { destruct (Z_lt_le_dec nid 1160) as [L|L]; [rewrite other in E by lia; discriminate|]. destruct (Z_lt_le_dec 1169 nid); [rewrite other in E by lia; discriminate|lia]. }
  destruct (standard nid R) as [g' [E' [W NID]]]. rewrite E in E'. injection E' as <-.
  assert (AG : api_group g /\ g_cofactor g = 1 /\ has_compressed_form (g_curve g) (g_gen g) /\ exists sx, good_solver (c_p (g_curve g)) sx /\ sx = solve_quad).
  { pose proof (from_nid nid) as FN. rewrite E in FN. replace ((1160 <=? nid) && (nid <=? 1169))%Z with true in FN by lia. injection FN as FN. assert (Hi : (Z.to_nat (nid - 1160) < 10)%nat) by lia.
    destruct (std_api _ Hi) as [A1 [A2 _]]. rewrite <- FN in A1, A2. split; [exact A1|]. split; [exact A2|]. split.
    - rewrite FN. clear - Hi. revert Hi. generalize (Z.to_nat (nid - 1160)). intros i Hi.
      assert (G : exists x y, g_gen (std i) = Some (x, y) /\ x <> 1) by (do 10 try (destruct i as [|i]; [eexists; eexists; split; [vm_compute; reflexivity|discriminate]|]); lia).
      destruct G as [x [y [-> N1]]]. left. exact N1.
    - exists solve_quad. split; [|reflexivity]. destruct W as [[D1 [D2 _]] _]. apply Proof_Compress2.half_trace_solver; assumption. }
  destruct AG as [AG [C1 [HC [sx [GS ->]]]]]. destruct (custom_total g le W AG HC) as [c EC]. destruct (custom_back solve_quad g le c W AG GS EC) as [BK _].
  exists c. destruct (curve_oid_back nid R) as [o [EO _]]. exists o.
  assert (CN : h_curve_nid (fails_at 1) g ((above h, OTemp) :: h, 1%nat) = Ret (0%Z, ((above h, OTemp) :: h, 2%nat))).
  { unfold h_curve_nid. assert (Nz : curve_nid_from_group g <> 0%Z) by lia. unfold curve_nid_from_group in Nz. destruct (find_curve _ _ _) as [i|]; [|contradiction].
    destruct (group_from_named_curve i) eqn:E1; [|contradiction]. unfold group_from_named_curve in E1. unfold h_named_curve. destruct (nth_error dstu_curves i); [|discriminate]. reflexivity. }
  pose proof (custom_tri (fails_at 1) (only_alloc 1) 2 g le ((above h, OTemp) :: h) 2%nat (le_n 2)) as CT.
  unfold h_from_key. unfold bindM at 1. change (new (fails_at 1) OTemp (h, 0%nat)) with (Ret (Some (above h), ((above h, OTemp) :: h, 1%nat))). cbv beta iota.
  cbn [deref calls]. unfold bindM at 1. cbn [ret]. unfold bindM at 1. unfold bindM at 1. cbn [ret]. unfold bindM at 1. rewrite CN. cbv beta iota. cbn [Z.eqb]. unfold bindM at 1.
  destruct (h_custom_from_group _ _ _ _) as [| |[r [h' n']]]; [destruct CT as [CT|CT]; [congruence|destruct (CT (only_full 1))]|destruct CT|].
  destruct CT as [_ [-> [[_ ->]|[N0 _]]]]; [|destruct (N0 (only_full 1))]. rewrite EC. cbn [opt_result ret]. cbv beta iota. exists (above h), n'. split; [reflexivity|]. split.
  - unfold asn1_from_key. cbn [dk_ec ek_group dk_sbox]. rewrite NID. destruct (Z.eqb_spec nid 0); [lia|]. rewrite EO. reflexivity.
  - rewrite BK. unfold cofactor_one. destruct g as [cc gg oo ff]. cbn in *. subst ff. reflexivity.
Qed.
Lemma call_only A k (o : option A) h n : n <> k -> call (fails_at k) o (h, n) = Ret (o, (h, S n)).
Proof. intros N0. unfold call, bindM, try, fails_at, some_malloc. destruct (Nat.eqb_spec n k); [contradiction|reflexivity]. Qed.
Lemma endless g d Q k src fuel h : g_order g <> 0 -> (forall i, exists e, src i = Some e /\ pmul (g_curve g) e (g_gen g) <> None) ->
  h_do_sign (fails_at 13) fuel (ECKEY (Some (Binary g)) (Some d) Q) (zeros (S k)) src (h, 0%nat) = Loop.
Proof.
  intros Hn Hs. assert (Hv : be_val (rev (zeros (S k))) = 0). { rewrite Proof_Key2.rev_zeros. apply Proof_Compress2.be_val_zeros. }
  unfold h_do_sign. cbn [ek_priv ek_group]. rewrite order_case. destruct (N.eqb_spec (g_order g) 0); [contradiction|].
  unfold bindM at 1. change (new (fails_at 13) OTemp (h, 0%nat)) with (Ret (Some (above h), ((above h, OTemp) :: h, 1%nat))). cbv beta iota.
  set (h1 := (above h, OTemp) :: h). unfold bindM at 1. unfold bindM at 1. 
  change (gets (fails_at 13) 7 (h1, 1%nat)) with (Ret (Some tt, (h1, 8%nat))). cbv beta iota. unfold bindM at 1. rewrite call_only by lia. cbv beta iota. unfold bindM at 1. rewrite call_only by lia. cbv beta iota.
  change (new (fails_at 13) OTemp (h1, 10%nat)) with (Ret (Some (above h1), ((above h1, OTemp) :: h1, 11%nat))). cbv beta iota. set (h2 := (above h1, OTemp) :: h1).
  unfold bindM at 1. unfold bindM at 1.
  assert (HH : h_hash_to_field (fails_at 13) (zeros (S k)) (degree (c_p (g_curve g))) (h2, 11%nat) = Ret (Some 0, (h2, 14%nat))).
  { unfold h_hash_to_field. rewrite Hv. change (zeros (S k)) with (0 :: zeros k). cbv iota. unfold bindM at 1. change (new (fails_at 13) OTemp (h2, 11%nat)) with (Ret (Some (above h2), ((above h2, OTemp) :: h2, 12%nat))). cbv beta iota.
    unfold bindM at 1. rewrite call_only by lia. cbv beta iota. unfold bindM at 1, free. rewrite live_head, release_head. cbn [N.eqb]. unfold bindM at 1. unfold bindM at 1. change (try (fails_at 13) (h2, 13%nat)) with (Ret (false, (h2, 14%nat))). cbv beta iota. unfold ret. cbv beta iota.
    assert (TZ := truncate_zero (Z.of_N (degree (c_p (g_curve g)))) ltac:(lia)). change (0 =? 0) with true. cbv beta iota. change (try (fails_at 13) (h2, 13%nat)) with (Ret (false, (h2, 14%nat))). cbv beta iota. rewrite TZ. reflexivity. }
  rewrite HH. cbv beta iota. unfold bindM at 1. 
  pose proof (sign_loop_tri (fails_at 13) 14 False True fuel g d 0 src 0%nat h2 (fun _ => I) 14%nat (le_n 14)) as T.
  destruct (h_sign_loop _ _ _ _ _ _ _ _) as [| |[r [h' n']]]; [destruct T|reflexivity|]. exfalso. destruct T as [_ [_ [[NR _]|[N0 _]]]]; [|exact (N0 (only_full 13))].
  apply NR, loop_running. intros j. destruct (Hs j) as [e [E H]]. exists e. split; [exact E|]. apply attempt_zero; assumption.
Qed.
Lemma fails_alloc k : allocator (fails_at k).
Proof. apply above_allocator. Qed.
Lemma expand_wrong : exists k, allocator (fails_at k) /\ well_formed Spec_Toy.toy_group /\ good_solver (c_p Spec_Toy.toy) solve_quad /\
  match h_expand (fails_at k) solve_quad [2] Spec_Toy.toy ([], 0%nat) with Ret (a, _) => Some a | _ => None end = Some (Some (Some (3, 26))) /\ stands_for Spec_Toy.toy [2] 3 25 /\ ~ stands_for Spec_Toy.toy [2] 3 26.
Proof.
  exists 30%nat. split; [apply fails_alloc|]. split; [exact Proof_Toy.toy_good|]. pose proof (proj1 Proof_Toy.toy_good) as D. assert (S : good_solver (c_p Spec_Toy.toy) solve_quad) by (destruct D as [D1 [D2 _]]; apply Proof_Compress2.half_trace_solver; assumption).
  split; [exact S|]. split; [vm_compute; reflexivity|]. split.
  - apply (Proof_Compress2.expand_iff_all _ _ [2] 3 25 D S). vm_compute. reflexivity.
  - intros H. assert (E : expand solve_quad [2] Spec_Toy.toy = Some (Some (3, 26))) by (apply (Proof_Compress2.expand_iff_all _ _ [2] 3 26 D S); split; [vm_compute; discriminate|exact H]). vm_compute in E. discriminate.
Qed.
Lemma compress_crash : exists k, allocator (fails_at k) /\ h_compress (fails_at k) Spec_Toy.toy (Some (3, 25)) 1 ([], 0%nat) = Undef /\ h_expand (fails_at k) solve_quad [2] Spec_Toy.toy ([], 0%nat) = Undef.
Proof. exists 9%nat. split; [apply fails_alloc|]. vm_compute. split; reflexivity. Qed.
Lemma encode_no_ctx malloc g le h n : malloc n h <> None -> malloc (S n) h = None -> h_custom_from_group malloc g le (h, n) = Undef.
Proof.
  intros H1 H2. unfold h_custom_from_group, bindM at 1, call, bindM at 1, try. destruct (malloc n h); [|contradiction]. cbn [ret]. unfold bindM at 1, new. rewrite H2. reflexivity.
Qed.
Lemma be_zero l : be_val (rev l) = 0 -> forall b, In b l -> b = 0.
Proof.
  unfold be_val. rewrite rev_involutive. induction l as [|x l IH]; [contradiction|]. cbn [le_val]. intros H b [<-|I]; [lia|apply IH; [lia|exact I]].
Qed.
Lemma sign_ends malloc : allocator malloc -> forall fuel key tbs src h n, do_sign fuel key tbs src <> Running -> (exists b, In b tbs /\ b <> 0) \/ never_fails malloc ->
  exists r n', h_do_sign malloc fuel key tbs src (h, n) = Ret (r, (h, n')).
Proof.
  intros HA fuel key tbs src h n NR H. pose proof (inst _ _ _ _ _ n _ (sign_tri malloc HA n fuel key tbs src h)) as T. destruct (h_do_sign _ _ _ _ _ _) as [| |[r [h' n']]]; [destruct T|..].
  - destruct T as [T|[NF [T1 T2]]]; [contradiction|]. destruct H as [[b [I B0]]|H]; [|destruct (NF (full_all malloc n H))]. exfalso. apply B0, (be_zero _ T2). exact I.
  - destruct T as [-> _]. eauto.
Qed.
Lemma custom_wrong : exists k q g, allocator (fails_at k) /\ group_from_asn1 solve_quad (CUSTOM (BF 5 (Trinomial 2)) 1 [2] 17 [2]) true = Some Spec_Toy.toy_group /\
  match h_group_from_asn1 (fails_at k) solve_quad (CUSTOM (BF 5 (Trinomial 2)) 1 [2] 17 [2]) true ([], 0%nat) with Ret (_, (h, _)) => Some h | _ => None end = Some [(q, OGroup (Binary g))] /\
  match h_group_from_asn1 (fails_at k) solve_quad (CUSTOM (BF 5 (Trinomial 2)) 1 [2] 17 [2]) true ([], 0%nat) with Ret (a, _) => Some a | _ => None end = Some (Some q) /\
  g_gen g = pneg (g_gen Spec_Toy.toy_group) /\ g_gen g <> g_gen Spec_Toy.toy_group.
Proof. exists 45%nat, 1%nat. eexists. split; [apply fails_alloc|]. split; [vm_compute; reflexivity|]. split; [vm_compute; reflexivity|]. split; [vm_compute; reflexivity|]. vm_compute. split; [reflexivity|discriminate]. Qed.
