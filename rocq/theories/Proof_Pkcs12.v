From Verif Require Import Lib Model_KeyStore Spec_KeyStore Proof_KeyStore Model_Pkcs12 Spec_Pkcs12.

Lemma bag_ind' (P : bag -> Prop) : (forall o, P (KeyBag o)) -> (forall o, P (ShroudedKeyBag o)) -> (forall o, P (CertBag o)) ->
  (forall l, Forall P l -> P (SafeContentsBag l)) -> P OtherBag -> forall b, P b.
Proof.
  intros H1 H2 H3 H4 H5. fix IH 1. intros [o|o|o|l|]; [apply H1|apply H2|apply H3| |apply H5].
  apply H4. induction l as [|b l IHl]; constructor; [apply IH|exact IHl].
Qed.

(** ** Counting *)
Definition cnt (d : side) (l : list item) : nat := length (filter (fun i : item => side_eqb d (fst i)) l).
Lemma cnt_app d a b : cnt d (a ++ b) = (cnt d a + cnt d b)%nat.
Proof. unfold cnt. rewrite filter_app, app_length. reflexivity. Qed.

Lemma count_bag_spec : forall b kc, count_bag b kc = (true, (fst kc + cnt Keys (items b), snd kc + cnt Certs (items b))%nat).
Proof.
  induction b using bag_ind'; intros [k c].
  - cbn. f_equal. f_equal; lia.
  - destruct o; cbn; f_equal; f_equal; lia.
  - cbn. f_equal. f_equal; lia.
  - cbn [count_bag items]. revert k c. induction H as [|b l Hb Hl IH]; intros k c; [cbn; f_equal; f_equal; lia|].
    rewrite Hb. cbn [fst snd]. rewrite IH. cbn [flat_map]. rewrite !cnt_app. cbn [fst snd]. f_equal. f_equal; lia.
  - cbn. f_equal. f_equal; lia.
Qed.
Lemma count_bags_spec : forall l kc, count_bags l kc = (true, (fst kc + cnt Keys (flat_map items l), snd kc + cnt Certs (flat_map items l))%nat).
Proof.
  induction l as [|b l IH]; intros [k c]; [cbn; f_equal; f_equal; lia|].
  cbn [count_bags flat_map]. rewrite count_bag_spec. cbn [fst snd]. rewrite IH, !cnt_app. cbn [fst snd]. f_equal. f_equal; lia.
Qed.
Lemma count_safes_ok : forall l kc, Forall p7_ok l -> count_safes l kc = (true, (fst kc + cnt Keys (items_of l), snd kc + cnt Certs (items_of l))%nat).
Proof.
  induction l as [|p l IH]; intros [k c] H; [cbn; f_equal; f_equal; lia|]. inversion H as [|? ? Hp Hl]. subst.
  destruct p as [|[b|]|[b|]|]; cbn in Hp; try contradiction; cbn [count_safes];
    try (rewrite count_bags_spec); rewrite IH by assumption; unfold items_of; cbn [flat_map items_p7 fst snd app];
    rewrite ?cnt_app; f_equal; f_equal; lia.
Qed.
Lemma count_safes_bad : forall l kc, ~ Forall p7_ok l -> fst (count_safes l kc) = false.
Proof.
  induction l as [|p l IH]; intros kc H; [exfalso; apply H; constructor|].
  destruct p as [|[b|]|[b|]|]; cbn [count_safes]; try reflexivity;
    try (rewrite count_bags_spec); apply IH; intros Hc; apply H; (constructor; [exact I|assumption]).
Qed.

(** ** Reading is a walk over the flat list *)
Fixpoint run_items (l : list item) (h : heap) (ks : nat) (kc : nat * nat) : bag_res :=
  match l with
  | [] => Some (h, kc, true)
  | (d, o) :: t =>
      match o with
      | None => Some (h, kc, false)
      | Some n => match (match d with Keys => put_key h ks kc n | Certs => put_cert h ks kc n end) with
                  | None => None
                  | Some (h', kc', _) => run_items t h' ks kc'
                  end
      end
  end.
Lemma put_key_res h ks kc n : match put_key h ks kc n with None => True | Some (_, _, r) => r = true end.
Proof. unfold put_key. destruct (ks_set _ _ _ _ _); [reflexivity|exact I]. Qed.
Lemma put_cert_res h ks kc n : match put_cert h ks kc n with None => True | Some (_, _, r) => r = true end.
Proof. unfold put_cert. destruct (ks_set _ _ _ _ _); [reflexivity|exact I]. Qed.
Lemma run_items_app : forall a b h ks kc, run_items (a ++ b) h ks kc =
  match run_items a h ks kc with None => None | Some (h', kc', true) => run_items b h' ks kc' | Some (h', kc', false) => Some (h', kc', false) end.
Proof.
  induction a as [|[d [n|]] a IH]; intros b h ks kc; [reflexivity| |reflexivity].
  cbn [app run_items]. destruct d.
  - destruct (put_key h ks kc n) as [[[h' kc'] r]|]; [apply IH|reflexivity].
  - destruct (put_cert h ks kc n) as [[[h' kc'] r]|]; [apply IH|reflexivity].
Qed.
Lemma from_bag_items : forall b h ks kc, from_bag b h ks kc = run_items (items b) h ks kc.
Proof.
  induction b using bag_ind'; intros h ks kc.
  - destruct o as [n|]; [|reflexivity]. cbn. pose proof (put_key_res h ks kc n). destruct (put_key h ks kc n) as [[[? ?] r]|]; [subst r|]; reflexivity.
  - destruct o as [[n|]|]; try reflexivity. cbn. pose proof (put_key_res h ks kc n). destruct (put_key h ks kc n) as [[[? ?] r]|]; [subst r|]; reflexivity.
  - destruct o as [n|]; [|reflexivity]. cbn. pose proof (put_cert_res h ks kc n). destruct (put_cert h ks kc n) as [[[? ?] r]|]; [subst r|]; reflexivity.
  - cbn [from_bag items]. revert h kc. induction H as [|b l Hb Hl IH]; intros h kc; [reflexivity|].
    cbn [flat_map]. rewrite run_items_app, Hb. destruct (run_items (items b) h ks kc) as [[[h' kc'] []]|]; [apply IH|reflexivity|reflexivity].
  - reflexivity.
Qed.
Lemma from_bags_items : forall l h ks kc, from_bags l h ks kc = run_items (flat_map items l) h ks kc.
Proof.
  induction l as [|b l IH]; intros h ks kc; [reflexivity|]. cbn [from_bags flat_map]. rewrite run_items_app, from_bag_items.
  destruct (run_items (items b) h ks kc) as [[[h' kc'] []]|]; [apply IH|reflexivity|reflexivity].
Qed.
Lemma from_safes_items : forall l h ks kc, Forall p7_ok l -> from_safes l h ks kc = run_items (items_of l) h ks kc.
Proof.
  induction l as [|p l IH]; intros h ks kc H; [reflexivity|]. inversion H as [|? ? Hp Hl]. subst.
  unfold items_of. cbn [flat_map]. rewrite run_items_app. fold (items_of l).
  destruct p as [|[b|]|[b|]|]; cbn in Hp; try contradiction; cbn [from_safes items_p7]; try (apply IH; assumption);
    rewrite from_bags_items; destruct (run_items (flat_map items b) h ks kc) as [[[h' kc'] []]|]; try reflexivity; apply IH; assumption.
Qed.

(** ** The walk fills the store *)
Definition filled (h : heap) (a : nat) (d : side) (l : list nat) (room : nat) : Prop :=
  exists x, hside h a d = Some x /\ hrep x (map Some l ++ repeat None room).

Lemma set_nth_fill : forall l n k, set_nth (map Some l ++ repeat None (S k)) (length l) (Some n) = map Some (l ++ [n]) ++ repeat None k.
Proof. induction l as [|x l IH]; intros n k; [reflexivity|]. cbn [map app length set_nth]. rewrite IH. reflexivity. Qed.

Lemma fill_one h a d l room n : filled h a d l (S room) ->
  exists h', ks_set h d a (length l) (Ptr n) = Some h' /\ filled h' a d (l ++ [n]) room /\
    only h h' (fun j e => j = a /\ e = d) /\ same_freed h h'.
Proof.
  intros [x [Hx Rx]]. destruct (hrep_set x _ (length l) n Rx) as [x' [Ex Rx']]; [rewrite app_length, map_length, repeat_length; lia|].
  rewrite set_nth_fill in Rx'.
  destruct (with_half_ok h a d (fun y => half_set y (length l) (Ptr n)) x x' Hx Ex) as [h' [E [T [O F]]]].
  exists h'. split; [exact E|]. split; [|split; assumption]. exists x'. split; assumption.
Qed.
Lemma filled_other h h' a d e l room : only h h' (fun j f => j = a /\ f = d) -> e <> d -> filled h a e l room -> filled h' a e l room.
Proof. intros O Hne [x [Hx Rx]]. exists x. split; [rewrite O; [exact Hx|intros [_ Hc]; auto]|exact Rx]. Qed.

Lemma objs_cons_k d n t : objs d ((Keys, Some n) :: t) = (if side_eqb d Keys then [n] else []) ++ objs d t.
Proof. reflexivity. Qed.

Lemma run_items_spec a : forall l h ks cs rk rc,
  filled h a Keys ks (cnt Keys l + rk) -> filled h a Certs cs (cnt Certs l + rc) ->
  exists h' kc', run_items l h a (length ks, length cs) = Some (h', kc', forallb (fun i : item => match snd i with Some _ => true | None => false end) l) /\
    (exists rk', filled h' a Keys (ks ++ objs Keys (good_prefix l)) rk' /\ (good_prefix l = l -> rk' = rk)) /\
    (exists rc', filled h' a Certs (cs ++ objs Certs (good_prefix l)) rc' /\ (good_prefix l = l -> rc' = rc)) /\
    only h h' (fun j e => j = a) /\ same_freed h h'.
Proof.
  induction l as [|[d [n|]] l IH]; intros h ks cs rk rc Hk Hc.
  - exists h, (length ks, length cs). cbn. rewrite !app_nil_r. split; [reflexivity|].
    split; [exists rk; split; [exact Hk|reflexivity]|]. split; [exists rc; split; [exact Hc|reflexivity]|].
    split; [intros ? ? ?; reflexivity|split; reflexivity].
  - cbn [run_items forallb snd andb good_prefix]. destruct d.
    + unfold put_key. cbn [fst snd]. change (cnt Keys ((Keys, Some n) :: l)) with (S (cnt Keys l)) in Hk. cbn [Nat.add] in Hk.
      destruct (fill_one h a Keys ks _ n Hk) as [h1 [E1 [F1 [O1 S1]]]]. rewrite E1.
      assert (Hc1 : filled h1 a Certs cs (cnt Certs l + rc)) by (eapply filled_other; [exact O1|discriminate|exact Hc]).
      destruct (IH h1 (ks ++ [n]) cs rk rc F1 Hc1) as [h' [kc' [E' [[rk' [K' KK]] [[rc' [C' CC]] [O' S']]]]]].
      exists h', kc'. split; [rewrite <- E'; rewrite app_length; cbn [length]; rewrite Nat.add_1_r; reflexivity|].
      split; [exists rk'; split; [rewrite <- app_assoc in K'; exact K'|intros Hg; injection Hg as Hg; auto]|].
      split; [exists rc'; split; [exact C'|intros Hg; injection Hg as Hg; auto]|].
      split; [eapply only_trans; [eapply only_weak; [|exact O1]; cbn; tauto|exact O']|eapply same_freed_trans; eassumption].
    + unfold put_cert. cbn [fst snd]. change (cnt Certs ((Certs, Some n) :: l)) with (S (cnt Certs l)) in Hc. cbn [Nat.add] in Hc.
      destruct (fill_one h a Certs cs _ n Hc) as [h1 [E1 [F1 [O1 S1]]]]. rewrite E1.
      assert (Hk1 : filled h1 a Keys ks (cnt Keys l + rk)) by (eapply filled_other; [exact O1|discriminate|exact Hk]).
      destruct (IH h1 ks (cs ++ [n]) rk rc Hk1 F1) as [h' [kc' [E' [[rk' [K' KK]] [[rc' [C' CC]] [O' S']]]]]].
      exists h', kc'. split; [rewrite <- E'; rewrite app_length; cbn [length]; rewrite Nat.add_1_r; reflexivity|].
      split; [exists rk'; split; [exact K'|intros Hg; injection Hg as Hg; auto]|].
      split; [exists rc'; split; [rewrite <- app_assoc in C'; exact C'|intros Hg; injection Hg as Hg; auto]|].
      split; [eapply only_trans; [eapply only_weak; [|exact O1]; cbn; tauto|exact O']|eapply same_freed_trans; eassumption].
  - exists h, (length ks, length cs). cbn [run_items forallb snd andb good_prefix]. split; [reflexivity|]. cbn [objs flat_map]. rewrite !app_nil_r.
    split; [eexists; split; [exact Hk|discriminate]|]. split; [eexists; split; [exact Hc|discriminate]|].
    split; [intros ? ? ?; reflexivity|split; reflexivity].
Qed.

Lemma good_prefix_all l : Forall (fun i : item => snd i <> None) l -> good_prefix l = l.
Proof. induction 1 as [|[d [n|]] l Hi Hl IH]; [reflexivity|cbn; rewrite IH; reflexivity|contradiction Hi; reflexivity]. Qed.

Lemma filled_shows h a d l : filled h a d l 0 -> shows h a d l.
Proof.
  intros [x [Hx Rx]]. cbn [repeat] in Rx. rewrite app_nil_r in Rx. destruct (hside_some _ _ _ _ Hx) as [s [Es Gs]]. split.
  - unfold ks_num. rewrite Es, Gs. destruct Rx as [-> _]. rewrite map_length. reflexivity.
  - intros pos. unfold ks_get. rewrite Es, Gs. cbv zeta. rewrite (hrep_get _ _ pos Rx). f_equal.
    revert pos. clear. induction l as [|n l IH]; intros [|pos]; cbn; try reflexivity. apply IH.
Qed.

Lemma objects_filled l room : objects (map Some l ++ repeat None room) = l.
Proof. rewrite objects_app, objects_none, app_nil_r. induction l as [|x l IH]; [reflexivity|]. cbn. f_equal. exact IH. Qed.

Lemma free_filled h a ks cs rk rc : filled h a Keys ks rk -> filled h a Certs cs rc -> NoDup (hp_fk h ++ ks) -> NoDup (hp_fc h ++ cs) ->
  exists h', ks_free h (Some a) = Some h' /\ hp_fk h' = hp_fk h ++ ks /\ hp_fc h' = hp_fc h ++ cs /\ hp_store h' a = None /\
    forall j, j <> a -> hp_store h' j = hp_store h j.
Proof.
  intros [x [Hx Rx]] [y [Hy Ry]] Nk Nc. unfold ks_free. destruct (hside_some _ _ _ _ Hx) as [s [Es Gs]]. rewrite Es.
  unfold hside in Hy. rewrite Es in Hy. injection Hy as Gy. cbn [get_side] in Gs, Gy. rewrite Gs, Gy.
  rewrite (free_half_spec _ _ (hp_fk h) Rx) by (rewrite objects_filled; exact Nk).
  rewrite (free_half_spec _ _ (hp_fc h) Ry) by (rewrite objects_filled; exact Nc). rewrite !objects_filled.
  eexists. split; [reflexivity|]. cbn [hp_fk hp_fc]. split; [reflexivity|]. split; [reflexivity|].
  unfold hp_store. cbn [hp_stores]. split; [rewrite hp_store_sset, Nat.eqb_refl; reflexivity|].
  intros j Hj. rewrite hp_store_sset. destruct (Nat.eqb_spec j a); [contradiction|reflexivity].
Qed.

Lemma only_store h h' a : only h h' (fun j _ => j = a) -> forall j, j <> a -> hp_store h' j = hp_store h j.
Proof.
  intros O j Hj. pose proof (O j Keys Hj) as H1. pose proof (O j Certs Hj) as H2. unfold hside in H1, H2.
  destruct (hp_store h' j) as [[k c]|], (hp_store h j) as [[k' c']|]; cbn in *; congruence.
Qed.

Lemma new_filled h a k c : filled (ks_new h a k c) a Keys [] k /\ filled (ks_new h a k c) a Certs [] c.
Proof.
  split; [exists (new_half k)|exists (new_half c)]; (split; [unfold ks_new; rewrite hside_put, Nat.eqb_refl; reflexivity|apply hrep_new]).
Qed.
Lemma new_other h a k c j : j <> a -> hp_store (ks_new h a k c) j = hp_store h j.
Proof. intros Hj. unfold ks_new, hp_store, put_store. cbn [hp_stores]. rewrite hp_store_sset. destruct (Nat.eqb_spec j a); [contradiction|reflexivity]. Qed.

Lemma NoDup_sub_prefix d l : forall f, NoDup (f ++ objs d l) -> NoDup (f ++ objs d (good_prefix l)).
Proof.
  induction l as [|[e [n|]] l IH]; intros f H; [exact H| |].
  - cbn [good_prefix]. change (objs d ((e, Some n) :: l)) with ((if side_eqb d e then [n] else []) ++ objs d l) in H.
    change (objs d ((e, Some n) :: good_prefix l)) with ((if side_eqb d e then [n] else []) ++ objs d (good_prefix l)).
    rewrite app_assoc in *. apply IH. exact H.
  - cbn. rewrite app_nil_r. apply NoDup_app_l in H. exact H.
Qed.

Lemma cnt_total l : l = [] <-> (cnt Keys l = 0 /\ cnt Certs l = 0)%nat.
Proof. split; [intros ->; split; reflexivity|]. destruct l as [|[[] o] l]; cbn; [reflexivity|intros [H _]; discriminate|intros [_ H]; discriminate]. Qed.

Definition p12_early (p : option pkcs12) : Prop := forall safes, p = Some (P12 true (Some safes)) -> ~ Forall p7_ok safes \/ items_of safes = [].

Lemma parse_early m h p ks : p12_early p -> parsePKCS12 m h p ks = Some (h, false, ks).
Proof.
  intros H. unfold parsePKCS12. destruct p as [[[] [safes|]]|]; cbn [p12_mac p12_safes negb]; try reflexivity.
  destruct (count_safes safes (0, 0)%nat) as [r [k c]] eqn:E. destruct (H safes eq_refl) as [Hb|He].
  - pose proof (count_safes_bad safes (0,0)%nat Hb) as F. rewrite E in F. cbn in F. subst r. reflexivity.
  - destruct r; [|reflexivity].
    destruct (Forall_dec p7_ok) with (l := safes) as [Hf|Hf]; [intros [|[]|[]|]; cbn; auto| |].
    + rewrite count_safes_ok in E by exact Hf. rewrite He in E. cbn in E. injection E as <- <-. reflexivity.
    + pose proof (count_safes_bad safes (0,0)%nat Hf) as F. rewrite E in F. discriminate F.
Qed.

Lemma parse_late m h safes ks : Forall p7_ok safes -> items_of safes <> [] ->
  NoDup (hp_fk h ++ objs Keys (items_of safes)) -> NoDup (hp_fc h ++ objs Certs (items_of safes)) ->
  exists h' r, parsePKCS12 m h (Some (P12 true (Some safes))) ks = Some (h', r, Some (m h)) /\
    (forall j, j <> m h -> hp_store h' j = hp_store h j) /\
    (r = true -> Forall (fun i : item => snd i <> None) (items_of safes) /\
       shows h' (m h) Keys (objs Keys (items_of safes)) /\ shows h' (m h) Certs (objs Certs (items_of safes)) /\
       hp_fk h' = hp_fk h /\ hp_fc h' = hp_fc h) /\
    (r = false -> ~ Forall (fun i : item => snd i <> None) (items_of safes) /\ hp_store h' (m h) = None /\
       hp_fk h' = hp_fk h ++ objs Keys (good_prefix (items_of safes)) /\ hp_fc h' = hp_fc h ++ objs Certs (good_prefix (items_of safes))).
Proof.
  intros Hf Hne Nk Nc. unfold parsePKCS12. cbn [p12_mac p12_safes negb]. rewrite count_safes_ok by exact Hf. cbn [fst snd Nat.add].
  replace (Nat.eqb (cnt Keys (items_of safes)) 0 && Nat.eqb (cnt Certs (items_of safes)) 0) with false.
  2:{ symmetry. apply andb_false_iff. destruct (Nat.eqb_spec (cnt Keys (items_of safes)) 0) as [E1|E1]; [right|left; reflexivity].
      apply Nat.eqb_neq. intros E2. apply Hne. apply cnt_total. split; assumption. }
  cbn [orb]. rewrite from_safes_items by exact Hf. set (l := items_of safes) in *. set (a := m h).
  destruct (new_filled h a (cnt Keys l) (cnt Certs l)) as [Fk Fc].
  destruct (run_items_spec a l (ks_new h a (cnt Keys l) (cnt Certs l)) [] [] 0 0) as [h1 [kc1 [E1 [[rk [K1 K2]] [[rc [C1 C2]] [O1 [S1 S2]]]]]]];
    [rewrite Nat.add_0_r; exact Fk|rewrite Nat.add_0_r; exact Fc|].
  cbn [length app] in *. rewrite E1. cbn [hp_fk hp_fc ks_new put_store] in S1, S2.
  assert (Hoth : forall j, j <> a -> hp_store h1 j = hp_store h j) by (intros j Hj; rewrite (only_store _ _ a O1 j Hj), new_other by exact Hj; reflexivity).
  destruct (forallb _ l) eqn:Eall.
  - exists h1, true. split; [reflexivity|]. split; [exact Hoth|]. split; [intros _|discriminate].
    assert (Hall : Forall (fun i : item => snd i <> None) l).
    { apply Forall_forall. rewrite forallb_forall in Eall. intros i Hi. specialize (Eall i Hi). destruct (snd i); discriminate. }
    rewrite (good_prefix_all l Hall) in *. rewrite (K2 eq_refl) in K1. rewrite (C2 eq_refl) in C1.
    split; [exact Hall|]. split; [apply filled_shows; exact K1|]. split; [apply filled_shows; exact C1|]. split; assumption.
  - destruct (free_filled h1 a _ _ _ _ K1 C1) as [h2 [E2 [Q1 [Q2 [Q3 Q4]]]]];
      [rewrite S1; apply NoDup_sub_prefix; exact Nk|rewrite S2; apply NoDup_sub_prefix; exact Nc|].
    rewrite E2. exists h2, false. split; [reflexivity|]. split; [intros j Hj; rewrite Q4, Hoth by exact Hj; reflexivity|].
    split; [discriminate|intros _]. split.
    + intros Hall. assert (forallb (fun i : item => match snd i with Some _ => true | None => false end) l = true).
      { apply forallb_forall. rewrite Forall_forall in Hall. intros i Hi. specialize (Hall i Hi). destruct (snd i); [reflexivity|contradiction Hall; reflexivity]. }
      congruence.
    + split; [exact Q3|]. rewrite Q1, Q2, S1, S2. split; reflexivity.
Qed.

Lemma p12_cases p : p12_early p \/ exists safes, p = Some (P12 true (Some safes)) /\ Forall p7_ok safes /\ items_of safes <> [].
Proof.
  destruct p as [[[] [safes|]]|]; try (left; intros ? ?; discriminate).
  destruct (Forall_dec p7_ok) with (l := safes) as [Hf|Hf]; [intros [|[]|[]|]; cbn; auto| |].
  - destruct (items_of safes) as [|i l] eqn:E.
    + left. intros s [= <-]. right. exact E.
    + right. exists safes. split; [reflexivity|]. split; [exact Hf|]. rewrite E. discriminate.
  - left. intros s [= <-]. left. exact Hf.
Qed.

Lemma pkcs12_total m h p ks : malloc_ok m -> p12_fresh h p ->
  exists h' r ks', parsePKCS12 m h p ks = Some (h', r, ks') /\
    (r = true <-> exists safes, readable p safes) /\
    (forall j, hp_store h j <> None -> hp_store h' j = hp_store h j) /\
    (forall safes, readable p safes ->
       exists a, ks' = Some a /\ hp_store h a = None /\
    shows h' a Keys (objs Keys (items_of safes)) /\ shows h' a Certs (objs Certs (items_of safes)) /\
    hp_fk h' = hp_fk h /\ hp_fc h' = hp_fc h) /\
    (r = false -> exists l, (forall safes, p = Some (P12 true (Some safes)) -> exists rest, items_of safes = l ++ rest) /\
    hp_fk h' = hp_fk h ++ objs Keys l /\ hp_fc h' = hp_fc h ++ objs Certs l /\ forall a, hp_store h' a <> None -> hp_store h a <> None).
Proof.
  intros Hm Hfr. destruct (p12_cases p) as [He|[safes [-> [Hf Hne]]]].
  - exists h, false, ks. split; [apply parse_early; exact He|]. split.
    + split; [discriminate|]. intros [safes [-> [H1 [H2 _]]]]. destruct (He safes eq_refl); contradiction.
    + split; [reflexivity|]. split; [intros safes [-> [H1 [H2 _]]]; destruct (He safes eq_refl); contradiction|].
      intros _. exists []. cbn. rewrite !app_nil_r. split; [intros s _; exists (items_of s); reflexivity|]. split; [reflexivity|]. split; [reflexivity|]. intros a Ha. exact Ha.
  - destruct (Hfr safes eq_refl) as [Nk Nc]. destruct (parse_late m h safes ks Hf Hne Nk Nc) as [h' [r [E [O [T F]]]]].
    exists h', r, (Some (m h)). split; [exact E|]. split; [|split; [|split]].
    + split; [intros ->; exists safes; destruct (T eq_refl) as [Ha _]; split; [reflexivity|split; [exact Hf|split; assumption]]|].
      intros [s [Es [_ [_ Ha]]]]. injection Es as <-. destruct r; [reflexivity|]. destruct (F eq_refl) as [Hn _]. contradiction.
    + intros j Hj. apply O. intros ->. apply Hj. apply Hm.
    + intros s [Es [_ [_ Ha]]]. injection Es as <-. exists (m h). split; [reflexivity|]. split; [apply Hm|].
      destruct r; [destruct (T eq_refl) as [_ [S1 [S2 [S3 S4]]]]; split; [exact S1|split; [exact S2|split; assumption]]|destruct (F eq_refl) as [Hn _]; contradiction].
    + intros ->. destruct (F eq_refl) as [_ [S0 [S1 S2]]]. exists (good_prefix (items_of safes)). split.
      * intros s Es. injection Es as <-. clear. induction (items_of safes) as [|[d [n|]] l IH]; [exists []; reflexivity| |exists ((d, None) :: l); reflexivity].
        destruct IH as [rest Hr]. exists rest. cbn [good_prefix app]. rewrite <- Hr. reflexivity.
      * split; [exact S1|]. split; [exact S2|]. intros a Ha. destruct (Nat.eq_dec a (m h)) as [->|Hn]; [contradiction|]. rewrite <- O by exact Hn. exact Ha.
Qed.

Lemma pkcs12_dangling m h safes ks : Forall p7_ok safes -> ~ Forall (fun i : item => snd i <> None) (items_of safes) ->
  p12_fresh h (Some (P12 true (Some safes))) ->
  exists h' a, parsePKCS12 m h (Some (P12 true (Some safes))) ks = Some (h', false, Some a) /\ hp_store h' a = None /\ ks_free h' (Some a) = None.
Proof.
  intros Hf Hn Hfr. destruct (Hfr safes eq_refl) as [Nk Nc].
  assert (Hne : items_of safes <> []) by (intros Hc; apply Hn; rewrite Hc; constructor).
  destruct (parse_late m h safes ks Hf Hne Nk Nc) as [h' [r [E [O [T F]]]]].
  destruct r; [destruct (T eq_refl) as [Ha _]; contradiction|]. destruct (F eq_refl) as [_ [S0 _]].
  exists h', (m h). split; [exact E|]. split; [exact S0|]. unfold ks_free. rewrite S0. reflexivity.
Qed.
