(** Key stores in memory: rules for programs on the heap, and the operations on stores. *)
From Coq Require Import List Lia Permutation.
Import ListNotations.
From Verif Require Import Base Model_Kmem Spec_Kmem.

Section Perm.
Variable A : Type.
Lemma here_c (x : A) R : Permutation (x :: R) (x :: R). Proof. reflexivity. Qed.
Lemma next_c (x b : A) R R' : Permutation R (x :: R') -> Permutation (b :: R) (x :: b :: R').
Proof. intros H. rewrite H. apply perm_swap. Qed.
Lemma next_ca (x : A) b R R' : Permutation R (x :: R') -> Permutation (b ++ R) (x :: b ++ R').
Proof. intros H. rewrite H. symmetry. apply Permutation_middle. Qed.
Lemma here_a (a R : list A) : Permutation (a ++ R) (a ++ R). Proof. reflexivity. Qed.
Lemma here_e (a : list A) : Permutation a (a ++ []). Proof. rewrite app_nil_r. reflexivity. Qed.
Lemma next_ac (a : list A) b R R' : Permutation R (a ++ R') -> Permutation (b :: R) (a ++ b :: R').
Proof. intros H. rewrite H. apply Permutation_middle. Qed.
Lemma next_a (a b R R' : list A) : Permutation R (a ++ R') -> Permutation (b ++ R) (a ++ b ++ R').
Proof. intros H. rewrite H. apply Permutation_app_swap_app. Qed.
Lemma bring_c (x : A) l R R' : Permutation R (x :: R') -> Permutation l R' -> Permutation (x :: l) R.
Proof. intros H1 H2. rewrite H1, H2. reflexivity. Qed.
Lemma bring_a (a l R R' : list A) : Permutation R (a ++ R') -> Permutation l R' -> Permutation (a ++ l) R.
Proof. intros H1 H2. rewrite H1, H2. reflexivity. Qed.
End Perm.
Ltac find_c := first [eapply here_c | eapply next_c; find_c | eapply next_ca; find_c].
Ltac find_a := first [eapply here_a | eapply here_e | eapply next_ac; find_a | eapply next_a; find_a].
Ltac perm := repeat (progress (cbn [app]; repeat rewrite <- app_assoc)); rewrite ?app_nil_r;
  repeat first [ solve [apply Permutation_refl]
               | (eapply bring_c; [find_c|]); rewrite ?app_nil_r
               | (eapply bring_a; [find_a|]); rewrite ?app_nil_r ].
Ltac inn := cbn [app]; first [apply in_eq | apply in_cons; inn | apply in_or_app; first [left; inn | right; inn] | assumption].

Lemma klive_in h p o : NoDup (map fst h) -> In (p, o) h -> klive h p = Some o.
Proof.
  induction h as [|[q x] h IH]; intros Hn Hi; [contradiction|]. cbn [klive map fst] in *. inversion Hn as [|? ? Hq Hn']. subst.
  destruct (Nat.eqb_spec p q) as [->|Hne].
  - destruct Hi as [E|Hi]; [injection E as ->; reflexivity|]. contradiction Hq. apply (in_map fst) in Hi. exact Hi.
  - destruct Hi as [E|Hi]; [injection E as -> ->; contradiction|]. auto.
Qed.
Lemma krelease_perm h p o R : NoDup (map fst h) -> Permutation h ((p, o) :: R) -> Permutation (krelease h p) R /\ NoDup (map fst (krelease h p)).
Proof.
  intros Hn Hp. assert (G : forall h, In (p, o) h -> NoDup (map fst h) -> Permutation h ((p, o) :: krelease h p)).
  { clear. induction h as [|[q x] h IH]; intros Hi Hn; [contradiction|]. cbn [krelease map fst] in *. inversion Hn as [|? ? Hq Hn']. subst.
    destruct (Nat.eqb_spec p q) as [->|Hne].
    - destruct Hi as [E|Hi]; [injection E as ->; reflexivity|]. contradiction Hq. apply (in_map fst) in Hi. exact Hi.
    - destruct Hi as [E|Hi]; [injection E as -> ->; contradiction|]. apply next_c. auto. }
  assert (Hi : In (p, o) h) by (rewrite Hp; apply in_eq). pose proof (G h Hi Hn) as E. split.
  - rewrite E in Hp. apply Permutation_cons_inv in Hp. exact Hp.
  - apply (Permutation_map fst) in E. apply (Permutation_NoDup E) in Hn. inversion Hn. assumption.
Qed.
Lemma kstore_perm h p o o' R : NoDup (map fst h) -> Permutation h ((p, o) :: R) -> Permutation (kstore h p o') ((p, o') :: R) /\ NoDup (map fst (kstore h p o')).
Proof.
  intros Hn Hp. assert (G : forall h, In (p, o) h -> NoDup (map fst h) -> Permutation (kstore h p o') ((p, o') :: krelease h p) /\ map fst (kstore h p o') = map fst h).
  { clear. induction h as [|[q x] h IH]; intros Hi Hn; [contradiction|]. cbn [kstore krelease map fst] in *. inversion Hn as [|? ? Hq Hn']. subst.
    destruct (Nat.eqb_spec p q) as [->|Hne].
    - destruct Hi as [E|Hi]; [injection E as ->; split; reflexivity|]. contradiction Hq. apply (in_map fst) in Hi. exact Hi.
    - destruct Hi as [E|Hi]; [injection E as -> ->; contradiction|]. destruct (IH Hi Hn') as [A B]. split; [apply next_c, A|]. cbn [map fst]. rewrite B. reflexivity. }
  assert (Hi : In (p, o) h) by (rewrite Hp; apply in_eq). destruct (G h Hi Hn) as [E1 E2]. split.
  - rewrite E1. apply perm_skip, (krelease_perm h p o R Hn Hp).
  - rewrite E2. exact Hn.
Qed.
Lemma klive_some h p R o : NoDup (map fst h) -> Permutation h ((p, o) :: R) -> klive h p = Some o.
Proof. intros Hn Hp. apply klive_in; [exact Hn|]. rewrite Hp. apply in_eq. Qed.

Section Logic.
Variable malloc : nat -> kheap -> option nat.
Hypothesis HA : kallocator malloc.
Variable from : nat.
Definition full : Prop := forall n h, (from <= n)%nat -> malloc n h <> None.
(** From memory with the cells [F]: the outcome, up to the order of cells. *)
Definition tri (U L : Prop) {A} (m : KM A) (F : kheap) (post : A -> kheap -> Prop) : Prop :=
  forall n (h : kheap), (from <= n)%nat -> NoDup (map fst h) -> Permutation h F ->
  match m (h, n) with
  | KUndef => U
  | KLoop => L
  | KRet (a, (h', n')) => (n <= n')%nat /\ NoDup (map fst h') /\ exists F' : kheap, Permutation h' F' /\ post a F'
  end.
Section Rules.
Variables U L : Prop.
Lemma tri_perm A (m : KM A) F F2 (post : A -> kheap -> Prop) : Permutation F F2 -> tri U L m F2 post -> tri U L m F post.
Proof. intros E H n h Hn Hd Hp. apply H; [exact Hn|exact Hd|]. rewrite Hp. exact E. Qed.
Lemma tri_ret A (a : A) F (post : A -> kheap -> Prop) : post a F -> tri U L (kret a) F post.
Proof. intros H n h Hn Hd Hp. cbn. eauto. Qed.
Lemma tri_retp A (a : A) F F' (post : A -> kheap -> Prop) : Permutation F F' -> post a F' -> tri U L (kret a) F post.
Proof. intros E H. eapply tri_perm; [exact E|]. apply tri_ret, H. Qed.
Lemma tri_bind A B (m : KM A) (f : A -> KM B) F (post : B -> kheap -> Prop) : tri U L m F (fun a F' => tri U L (f a) F' post) -> tri U L (kbind m f) F post.
Proof.
  intros H n h Hn Hd Hp. specialize (H n h Hn Hd Hp). unfold kbind. destruct (m (h, n)) as [| |[a [h' n']]]; [exact H..|]. destruct H as [L1 [D1 [F1 [P1 H]]]].
  specialize (H n' h' ltac:(lia) D1 P1). destruct (f a (h', n')) as [| |[b [h'' n'']]]; [exact H..|]. destruct H as [? ?]. split; [lia|assumption].
Qed.
Lemma tri_mono A (m : KM A) F (p q : A -> kheap -> Prop) : tri U L m F p -> (forall a F', p a F' -> exists F'', Permutation F' F'' /\ q a F'') -> tri U L m F q.
Proof.
  intros H I n h Hn Hd Hp. specialize (H n h Hn Hd Hp). destruct (m (h, n)) as [| |[a [h' n']]]; [exact H..|]. destruct H as [? [? [F1 [P1 H]]]]. split; [assumption|]. split; [assumption|].
  destruct (I _ _ H) as [F2 [P2 H2]]. exists F2. split; [rewrite P1; exact P2|exact H2].
Qed.
Lemma tri_seq A B (m : KM A) (f : A -> KM B) F (p : A -> kheap -> Prop) (q : B -> kheap -> Prop) : tri U L m F p -> (forall a F', p a F' -> tri U L (f a) F' q) -> tri U L (kbind m f) F q.
Proof.
  intros H I. apply tri_bind. eapply tri_mono; [exact H|]. intros a F' Hp. exists F'. split; [reflexivity|]. apply I, Hp.
Qed.
Lemma tri_weak A (m : KM A) F (post : A -> kheap -> Prop) : tri U L m F (fun a F' => exists F'' : kheap, Permutation F' F'' /\ post a F'') -> tri U L m F post.
Proof. intros H. eapply tri_mono; [exact H|]. auto. Qed.
Lemma tri_undef A F (post : A -> kheap -> Prop) : U -> tri U L kundef F post.
Proof. intros H n h Hn Hd Hp. exact H. Qed.
Lemma tri_loop A F (post : A -> kheap -> Prop) : L -> tri U L (fun _ => KLoop) F post.
Proof. intros H n h Hn Hd Hp. exact H. Qed.
Lemma tri_deref p F (post : nat -> kheap -> Prop) : match p with Some a => post a F | None => U end -> tri U L (kderef p) F post.
Proof. destruct p; [apply tri_ret|apply tri_undef]. Qed.
Lemma tri_try F (post : bool -> kheap -> Prop) : post true F -> (~ full -> post false F) -> tri U L (ktry malloc) F post.
Proof.
  intros H1 H2 n h Hn Hd Hp. unfold ktry. destruct (malloc n h) eqn:E; (split; [lia|]); (split; [exact Hd|]); exists F; (split; [exact Hp|]); [exact H1|]. apply H2. intros G. exact (G _ _ Hn E).
Qed.
Lemma tri_new o F (post : option nat -> kheap -> Prop) : (forall p, ~ In p (map fst F) -> post (Some p) ((p, o) :: F)) -> (~ full -> post None F) -> tri U L (knew malloc o) F post.
Proof.
  intros H1 H2 n h Hn Hd Hp. unfold knew. destruct (malloc n h) as [p|] eqn:E; (split; [lia|]).
  - pose proof (HA _ _ _ E) as Hf. split; [cbn; constructor; assumption|]. exists ((p, o) :: F). split; [rewrite Hp; reflexivity|]. apply H1. intros Hi. apply Hf. rewrite Hp. exact Hi.
  - split; [exact Hd|]. exists F. split; [exact Hp|]. apply H2. intros G. exact (G _ _ Hn E).
Qed.
Lemma tri_make o F (post : option nat -> kheap -> Prop) : (forall x p, o = Some x -> post (Some p) ((p, x) :: F)) -> (o = None \/ ~ full -> post None F) -> tri U L (kmake malloc o) F post.
Proof. intros H1 H2. destruct o as [x|]; [apply tri_new; auto|apply tri_ret; auto]. Qed.
Lemma tri_buffer n F (post : option nat -> kheap -> Prop) : (forall p, n <> O -> post (Some p) ((p, KTemp) :: F)) -> (n = O \/ ~ full -> post None F) -> tri U L (kbuffer malloc n) F post.
Proof. intros H1 H2. destruct n as [|n]; [apply tri_ret; auto|apply tri_new; auto]. Qed.
Lemma tri_free p o F F' (post : unit -> kheap -> Prop) : Permutation F ((p, o) :: F') -> post tt F' -> tri U L (kfree p) F post.
Proof.
  intros E H n h Hn Hd Hp. rewrite E in Hp. unfold kfree. rewrite (klive_some _ _ _ _ Hd Hp). split; [lia|].
  destruct (krelease_perm _ _ _ _ Hd Hp) as [P1 D1]. split; [exact D1|]. exists F'. auto.
Qed.
Lemma tri_put p o o' F F' (post : unit -> kheap -> Prop) : Permutation F ((p, o) :: F') -> post tt ((p, o') :: F') -> tri U L (kput p o') F post.
Proof.
  intros E H n h Hn Hd Hp. rewrite E in Hp. unfold kput. rewrite (klive_some _ _ _ _ Hd Hp). split; [lia|].
  destruct (kstore_perm _ _ _ o' _ Hd Hp) as [P1 D1]. split; [exact D1|]. eauto.
Qed.
Lemma tri_get p o F (post : kobj -> kheap -> Prop) : In (p, o) F -> post o F -> tri U L (kget p) F post.
Proof.
  intros Hi H n h Hn Hd Hp. unfold kget. rewrite (klive_in h p o Hd) by (rewrite Hp; exact Hi). split; [lia|]. split; [exact Hd|]. exists F. auto.
Qed.
Lemma tri_arr p l F (post : list kcell -> kheap -> Prop) : In (p, KArr l) F -> post l F -> tri U L (karr p) F post.
Proof. intros Hi H. apply tri_bind. eapply tri_get; [exact Hi|]. apply tri_ret, H. Qed.
Lemma tri_kstore p n k m c F (post : nat * kcell * (nat * kcell) -> kheap -> Prop) : In (p, KStore n k m c) F -> post (n, k, (m, c)) F -> tri U L (kstore_of p) F post.
Proof. intros Hi H. apply tri_bind. eapply tri_get; [exact Hi|]. apply tri_ret, H. Qed.
End Rules.
End Logic.
Ltac t1 := lazymatch goal with
  | |- tri _ _ _ (kbind _ _) _ _ => apply tri_bind
  | |- tri _ _ _ (kret _) _ _ => apply tri_ret
  | |- tri _ _ _ (kfree_opt (Some ?p)) _ _ => change (kfree_opt (Some p)) with (kfree p); eapply tri_free; [cbn [app]; find_c|]
  | |- tri _ _ _ (kfree_opt None) _ _ => change (kfree_opt None) with (kret tt); apply tri_ret
  | |- tri _ _ _ (kderef (Some ?p)) _ _ => change (kderef (Some p)) with (kret p); apply tri_ret
  | |- tri _ _ _ (kderef None) _ _ => apply tri_undef
  | |- tri _ _ _ (kcell_ptr (At ?p)) _ _ => change (kcell_ptr (At p)) with (kret p); apply tri_ret
  | |- tri _ _ _ (ktry _) _ _ => apply tri_try; [|intros ?]
  | |- tri _ _ _ (knew _ _) _ _ => apply tri_new; [assumption|intros ? ?|intros ?]
  | |- tri _ _ _ (kfree _) _ _ => eapply tri_free; [cbn [app]; find_c|]
  | |- tri _ _ _ (kput _ _) _ _ => eapply tri_put; [cbn [app]; find_c|]
  | |- tri _ _ _ (kget _) _ _ => eapply tri_get; [inn|]
  | |- tri _ _ _ (karr _) _ _ => eapply tri_arr; [inn|]
  | |- tri _ _ _ (kstore_of _) _ _ => eapply tri_kstore; [inn|]
  end; cbv beta iota.

Section Store.
Variable malloc : nat -> kheap -> option nat.
Hypothesis HA : kallocator malloc.
Variable from : nat.
Notation full := (full malloc from).
Notation tri := (tri from).

Lemma slots_empty mk n : slots mk (repeat (At None) n) (repeat None n) [].
Proof. induction n as [|n IH]; cbn; constructor. exact IH. Qed.
Lemma slots_length mk l vs c : slots mk l vs c -> length l = length vs.
Proof. induction 1; cbn; congruence. Qed.
Lemma slots_app mk l1 v1 c1 l2 v2 c2 : slots mk l1 v1 c1 -> slots mk l2 v2 c2 -> slots mk (l1 ++ l2) (v1 ++ v2) (c1 ++ c2).
Proof. induction 1; intros H2; cbn; [exact H2|constructor..]; auto. Qed.
Lemma slots_set mk : forall pre post l c p v, slots mk l (pre ++ None :: post) c ->
  exists l' c', set_cell l (length pre) (At (Some p)) = Some l' /\ slots mk l' (pre ++ Some v :: post) c' /\ Permutation ((p, mk v) :: c) c'.
Proof.
  induction pre as [|x pre IH]; intros post l c p v H; inversion H as [|l0 vs0 c0 H0|p0 v0 l0 vs0 c0 H0]; subst.
  - exists (At (Some p) :: l0), ((p, mk v) :: c). split; [reflexivity|]. split; [constructor; assumption|reflexivity].
  - destruct (IH post l0 c p v H0) as [l' [c' [E [S1 P1]]]]. exists (At None :: l'), c'. cbn [set_cell length]. rewrite E. split; [reflexivity|]. split; [constructor; exact S1|exact P1].
  - destruct (IH post l0 c0 p v H0) as [l' [c' [E [S1 P1]]]]. exists (At (Some p0) :: l'), ((p0, mk v0) :: c'). cbn [set_cell length]. rewrite E. split; [reflexivity|].
    split; [constructor; exact S1|]. rewrite <- P1. apply perm_swap.
Qed.

Lemma half_tri mk n F : tri (~ full) False (h_half malloc n) F (fun cell F' => exists c, half mk cell (repeat None n) c /\ F' = c ++ F).
Proof.
  destruct n as [|n]; cbn [h_half]; [t1; exists []; split; [left; auto|reflexivity]|].
  t1. t1; [|t1; t1; assumption]. do 5 t1. exists [(p, KArr (repeat (At None) (S n)))]. split; [|reflexivity].
  right. exists p, (repeat (At None) (S n)), []. split; [discriminate|]. split; [reflexivity|]. split; [apply slots_empty|reflexivity].
Qed.
Ltac rp F := apply (tri_retp _ _ _ _ _ _ F); [perm|].
Lemma ks_new_tri k c F : tri (~ full) False (h_ks_new malloc k c) F (fun q F' => exists cells, stores q (repeat None k) (repeat None c) cells /\ F' = cells ++ F).
Proof.
  unfold h_ks_new. t1. t1; [|t1; t1; assumption]. t1. t1.
  eapply tri_seq; [apply half_tri with (mk := KPkey)|]. cbv beta. intros ck F1 [hk [Hk ->]].
  eapply tri_seq; [apply half_tri with (mk := KCert)|]. cbv beta. intros cc F2 [hc [Hc ->]].
  t1. t1. apply (tri_retp _ _ _ _ _ _ (((p, KStore k ck c cc) :: hk ++ hc) ++ F)); [perm|].
  eexists. split; [|reflexivity]. exists ck, cc, hk, hc. rewrite !repeat_length. auto.
Qed.

Lemma set_half_tri mk cell pre post c p v F : half mk cell (pre ++ None :: post) c ->
  tri (~ full) False (h_set_cell cell (length pre) p) ((p, mk v) :: c ++ F) (fun _ F' => exists c', half mk cell (pre ++ Some v :: post) c' /\ F' = c' ++ F).
Proof.
  intros [[E _]|[a [l [objs [_ [-> [S1 ->]]]]]]]; [destruct pre; discriminate|].
  destruct (slots_set mk pre post l objs p v S1) as [l' [c' [E [S2 P2]]]].
  unfold h_set_cell. do 6 t1. rewrite E. apply tri_weak.
  t1. exists (((a, KArr l') :: c') ++ F). split; [rewrite <- P2; perm|].
  exists ((a, KArr l') :: c'). split; [|reflexivity]. right. exists a, l', c'. split; [destruct pre; discriminate|]. auto.
Qed.
Lemma set_key_tri q pre post cs c p v F : stores q (pre ++ None :: post) cs c ->
  tri (~ full) False (h_set_key q (length pre) p) ((p, KPkey v) :: c ++ F) (fun _ F' => exists c', stores q (pre ++ Some v :: post) cs c' /\ F' = c' ++ F).
Proof.
  intros [ck [cc [hk [hc [Hk [Hc ->]]]]]]. unfold h_set_key. t1. t1. apply tri_weak.
  eapply tri_perm; [|eapply tri_mono; [apply (set_half_tri KPkey ck pre post hk p v ((q, KStore (length (pre ++ None :: post)) ck (length cs) cc) :: hc ++ F) Hk)|]]; [perm|].
  cbv beta. intros _ F' [c' [H1 ->]]. exists (c' ++ (q, KStore (length (pre ++ None :: post)) ck (length cs) cc) :: hc ++ F). split; [reflexivity|].
  exists (((q, KStore (length (pre ++ None :: post)) ck (length cs) cc) :: c' ++ hc) ++ F). split; [perm|].
  eexists. split; [|reflexivity]. exists ck, cc, c', hc. split; [exact H1|]. split; [exact Hc|]. rewrite !app_length. reflexivity.
Qed.
Lemma set_cert_tri q ks pre post c p v F : stores q ks (pre ++ None :: post) c ->
  tri (~ full) False (h_set_cert q (length pre) p) ((p, KCert v) :: c ++ F) (fun _ F' => exists c', stores q ks (pre ++ Some v :: post) c' /\ F' = c' ++ F).
Proof.
  intros [ck [cc [hk [hc [Hk [Hc ->]]]]]]. unfold h_set_cert. t1. t1. apply tri_weak.
  eapply tri_perm; [|eapply tri_mono; [apply (set_half_tri KCert cc pre post hc p v ((q, KStore (length ks) ck (length (pre ++ None :: post)) cc) :: hk ++ F) Hc)|]]; [perm|].
  cbv beta. intros _ F' [c' [H1 ->]]. exists (c' ++ (q, KStore (length ks) ck (length (pre ++ None :: post)) cc) :: hk ++ F). split; [reflexivity|].
  exists (((q, KStore (length ks) ck (length (pre ++ None :: post)) cc) :: hk ++ c') ++ F). split; [perm|].
  eexists. split; [|reflexivity]. exists ck, cc, hk, c'. split; [exact Hk|]. split; [exact H1|]. rewrite !app_length. reflexivity.
Qed.

Lemma append_half_tri mk t n f vt vf ct cf F : half mk t vt ct -> half mk f vf cf -> n = length vf ->
  tri (~ full) False (h_append_half malloc t n f) (ct ++ cf ++ F)
    (fun t' F' => exists ct' cf', half mk t' (vt ++ vf) ct' /\ half mk f (repeat None (length vf)) cf' /\ F' = ct' ++ cf' ++ F).
Proof.
  intros Ht Hf ->. destruct Hf as [[-> [-> ->]]|[a [l [objs [Hne [-> [S1 ->]]]]]]].
  { cbn [length h_append_half repeat]. t1. exists ct, []. rewrite app_nil_r. split; [exact Ht|]. split; [left; auto|reflexivity]. }
  assert (Hn : exists m, length vf = S m) by (destruct vf; [contradiction|eexists; reflexivity]). destruct Hn as [m Hm]. rewrite Hm. cbn [h_append_half]. rewrite <- Hm.
  assert (Hfin : forall l0 co b R, slots mk l0 vt co -> Permutation R (co ++ objs ++ F) ->
    tri (~ full) False (from0 <- kret (Some a) ;; f <- kderef from0 ;; l <- karr f ;;
      if Nat.ltb (length l) (length vf) then kundef
      else kput b (KArr (l0 ++ firstn (length vf) l)) ;;; kput f (KArr (repeat (At None) (length vf) ++ skipn (length vf) l)) ;;; kret (At (Some b)))
      ((b, KArr (l0 ++ repeat Unset (length vf))) :: (a, KArr l) :: R)
      (fun t' F' => exists ct' cf', half mk t' (vt ++ vf) ct' /\ half mk (At (Some a)) (repeat None (length vf)) cf' /\ F' = ct' ++ cf' ++ F)).
  { intros l0 co b R S0 P0. do 6 t1. rewrite (slots_length _ _ _ _ S1), Nat.ltb_irrefl.
    rewrite <- (slots_length _ _ _ _ S1), firstn_all, skipn_all, app_nil_r. do 4 t1.
    apply (tri_retp _ _ _ _ _ _ (((b, KArr (l0 ++ l)) :: co ++ objs) ++ [(a, KArr (repeat (At None) (length l)))] ++ F)); [rewrite P0; perm|].
    eexists _, _. split; [|split; [|reflexivity]].
    - right. exists b, (l0 ++ l), (co ++ objs). split; [destruct vt; [exact Hne|discriminate]|]. split; [reflexivity|]. split; [apply slots_app; assumption|reflexivity].
    - right. exists a, (repeat (At None) (length l)), []. rewrite (slots_length _ _ _ _ S1). split; [rewrite Hm; discriminate|]. split; [reflexivity|]. split; [apply slots_empty|reflexivity]. }
  destruct Ht as [[-> [-> ->]]|[b [l0 [objs0 [Hne0 [-> [S0 ->]]]]]]].
  - t1. t1. t1. t1. t1. t1; [|t1; t1; assumption]. do 4 t1. apply (Hfin [] [] p _); [constructor|reflexivity].
  - do 5 t1. t1; [|t1; t1; assumption]. do 4 t1.
    eapply tri_perm; [|apply (Hfin l0 objs0 p (objs0 ++ objs ++ F) S0); reflexivity]. perm.
Qed.
Lemma append_tri q t ks cs ks2 cs2 c c2 F : stores q ks cs c -> stores t ks2 cs2 c2 ->
  tri (~ full) False (h_append malloc q t) (c ++ c2 ++ F)
    (fun _ F' => exists c' c2', stores q (ks ++ ks2) (cs ++ cs2) c' /\ stores t (repeat None (length ks2)) (repeat None (length cs2)) c2' /\ F' = c' ++ c2' ++ F).
Proof.
  intros [ck [cc [hk [hc [Hk [Hc ->]]]]]] [ck2 [cc2 [hk2 [hc2 [Hk2 [Hc2 ->]]]]]]. unfold h_append. t1. t1. t1. t1.
  set (Q := (q, KStore (length ks) ck (length cs) cc)). set (T := (t, KStore (length ks2) ck2 (length cs2) cc2)).
  eapply tri_seq; [eapply tri_perm; [|apply (append_half_tri KPkey ck (length ks2) ck2 ks ks2 hk hk2 (Q :: T :: hc ++ hc2 ++ F) Hk Hk2 eq_refl)]; perm|].
  cbv beta. intros ck' F1 [hk' [hk2' [Hk' [Hk2' ->]]]].
  eapply tri_seq; [eapply tri_perm; [|apply (append_half_tri KCert cc (length cs2) cc2 cs cs2 hc hc2 (Q :: T :: hk' ++ hk2' ++ F) Hc Hc2 eq_refl)]; perm|].
  cbv beta. intros cc' F2 [hc' [hc2' [Hc' [Hc2' ->]]]]. unfold Q. apply tri_weak. t1.
  exists (((q, KStore (length ks + length ks2) ck' (length cs + length cs2) cc') :: hk' ++ hc') ++ (T :: hk2' ++ hc2') ++ F). split; [perm|].
  eexists _, _. split; [|split; [|reflexivity]].
  - exists ck', cc', hk', hc'. rewrite !app_length. auto.
  - exists ck2, cc2, hk2', hc2'. rewrite !repeat_length. auto.
Qed.

Lemma free_cells_tri mk kind U L : (forall v, kind (mk v) = true) -> forall l vs c F, slots mk l vs c -> tri U L (h_free_cells kind l) (c ++ F) (fun _ F' => F' = F).
Proof.
  intros Hk l vs c F Hs. induction Hs as [|l vs c Hs IH|p v l vs c Hs IH]; cbn [h_free_cells app].
  - t1. reflexivity.
  - do 4 t1. exact IH.
  - do 5 t1. rewrite Hk. t1. exact IH.
Qed.
Lemma free_half_tri mk kind U L : (forall v, kind (mk v) = true) -> forall cell vs c F, half mk cell vs c ->
  tri U L (h_free_half kind (length vs) cell) (c ++ F) (fun _ F' => F' = F).
Proof.
  intros Hk cell vs c F [[-> [-> ->]]|[a [l [objs [_ [-> [S1 ->]]]]]]]; unfold h_free_half; [do 3 t1; reflexivity|].
  do 4 t1. rewrite (slots_length _ _ _ _ S1), Nat.ltb_irrefl. rewrite <- (slots_length _ _ _ _ S1), firstn_all.
  eapply tri_seq; [eapply tri_perm; [|apply (free_cells_tri mk kind U L Hk l vs objs ((a, KArr l) :: F) S1)]; perm|]. cbv beta. intros _ F' ->. t1. reflexivity.
Qed.
Lemma ks_free_tri U L q ks cs c F : stores q ks cs c -> tri U L (h_ks_free (Some q)) (c ++ F) (fun _ F' => F' = F).
Proof.
  intros [ck [cc [hk [hc [Hk [Hc ->]]]]]]. unfold h_ks_free. do 4 t1.
  set (Q := (q, KStore (length ks) ck (length cs) cc)).
  eapply tri_seq; [eapply tri_perm; [|apply (free_half_tri KPkey is_pkey U L (fun _ => eq_refl) ck ks hk (Q :: hc ++ F) Hk)]; perm|]. cbv beta. intros _ F1 ->.
  eapply tri_seq; [eapply tri_perm; [|apply (free_half_tri KCert is_cert U L (fun _ => eq_refl) cc cs hc (Q :: F) Hc)]; perm|]. cbv beta. intros _ F2 ->. unfold Q. t1. reflexivity.
Qed.
(** KeyStoreAppend and KeyStoreFree of the second store. *)
Lemma attach_tri q t ks cs ks2 cs2 c c2 F B (k : KM B) post : stores q ks cs c -> stores t ks2 cs2 c2 ->
  (forall c', stores q (ks ++ ks2) (cs ++ cs2) c' -> tri (~ full) False k (c' ++ F) post) ->
  tri (~ full) False (h_append malloc q t ;;; h_ks_free (Some t) ;;; k) (c ++ c2 ++ F) post.
Proof.
  intros H1 H2 H3. eapply tri_seq; [apply append_tri; eassumption|]. cbv beta. intros _ F' [c' [c2' [S1 [S2 ->]]]].
  eapply tri_seq; [eapply tri_perm; [|apply (ks_free_tri _ _ t _ _ c2' (c' ++ F) S2)]; perm|]. cbv beta. intros _ F2 ->. apply H3, S1.
Qed.
End Store.
