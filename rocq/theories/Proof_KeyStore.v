(** Proofs about key stores. *)
From Verif Require Import Lib Model_KeyStore Spec_KeyStore.
From Coq Require Import Permutation.

Definition side_eq_dec (a b : side) : {a = b} + {a <> b}.
Proof. decide equality. Defined.

(** ** Access by store and side *)
Definition hside (h : heap) (i : nat) (d : side) : option half :=
  match hp_store h i with Some s => Some (get_side s d) | None => None end.
Definition same_freed (h h' : heap) := hp_fk h' = hp_fk h /\ hp_fc h' = hp_fc h.
Definition only (h h' : heap) (P : nat -> side -> Prop) := forall j e, ~ P j e -> hside h' j e = hside h j e.

Lemma hp_store_sset l i v j : assoc (sset l i v) j = if Nat.eqb j i then v else assoc l j.
Proof.
  assert (E : assoc (filter (fun e => negb (Nat.eqb i (fst e))) l) j = if Nat.eqb j i then None else assoc l j).
  { induction l as [|[k s] l IH]; cbn [filter assoc fst]; [destruct (Nat.eqb j i); reflexivity|].
    destruct (Nat.eqb_spec i k) as [<-|Hne]; cbn [negb assoc].
    - rewrite IH. destruct (Nat.eqb j i); reflexivity.
    - rewrite IH. destruct (Nat.eqb_spec j k) as [->|_]; [|reflexivity]. destruct (Nat.eqb_spec k i) as [->|_]; [contradiction|reflexivity]. }
  unfold sset. destruct v as [s|]; [cbn [assoc]|]; rewrite E; destruct (Nat.eqb j i); reflexivity.
Qed.
Lemma hside_put h i s j e : hside (put_store h i (Some s)) j e = if Nat.eqb j i then Some (get_side s e) else hside h j e.
Proof. unfold hside, hp_store, put_store. cbn [hp_stores]. rewrite hp_store_sset. destruct (Nat.eqb j i); reflexivity. Qed.

Lemma with_half_ok h i d f x x' : hside h i d = Some x -> f x = Some x' ->
  exists h', with_half h i d f = Some h' /\ hside h' i d = Some x' /\ only h h' (fun j e => j = i /\ e = d) /\ same_freed h h'.
Proof.
  unfold hside at 1, with_half. destruct (hp_store h i) as [s|] eqn:E; [|discriminate]. intros [= <-] Hf. rewrite Hf.
  eexists. split; [reflexivity|]. split; [|split; [|split; reflexivity]].
  - rewrite hside_put, Nat.eqb_refl. destruct d; reflexivity.
  - intros j e Hne. rewrite hside_put. destruct (Nat.eqb j i) eqn:Ej; [|reflexivity].
    apply Nat.eqb_eq in Ej. subst j. unfold hside. rewrite E. destruct d, e; cbn; try reflexivity; exfalso; apply Hne; split; reflexivity.
Qed.

Lemma arr_set_app a x b v : arr_set (a ++ x :: b) (length a) v = Some (a ++ v :: b).
Proof. induction a as [|y a IH]; cbn [app length arr_set]; [reflexivity|]. rewrite IH. reflexivity. Qed.
Lemma arr_set_at a x b v i : i = length a -> arr_set (a ++ x :: b) i v = Some (a ++ v :: b).
Proof. intros ->. apply arr_set_app. Qed.
Lemma nth_error_at {A} (a : list A) x b i : i = length a -> nth_error (a ++ x :: b) i = Some x.
Proof. intros ->. rewrite nth_error_app2 by lia. rewrite Nat.sub_diag. reflexivity. Qed.

Lemma ks_set_ok h d i pos v nm a b x : hside h i d = Some (HALF nm (Some (a ++ x :: b))) -> pos = length a ->
  exists h', ks_set h d i pos v = Some h' /\ hside h' i d = Some (HALF nm (Some (a ++ v :: b))) /\
    only h h' (fun j e => j = i /\ e = d) /\ same_freed h h'.
Proof.
  intros H ->. unfold ks_set. eapply with_half_ok; [exact H|]. unfold half_set. cbn [h_arr h_num]. rewrite arr_set_app. reflexivity.
Qed.

Lemma same_freed_trans a b c : same_freed a b -> same_freed b c -> same_freed a c.
Proof. intros [H1 H2] [H3 H4]. split; congruence. Qed.
Lemma only_trans a b c P : only a b P -> only b c P -> only a c P.
Proof. intros H1 H2 j e Hn. rewrite H2, H1; auto. Qed.
Lemma only_weak a b (P Q : nat -> side -> Prop) : (forall j e, P j e -> Q j e) -> only a b P -> only a b Q.
Proof. intros HPQ H j e Hn. apply H. intros Hp. apply Hn. apply HPQ. exact Hp. Qed.
Lemma hside_some h i d x : hside h i d = Some x -> exists s, hp_store h i = Some s /\ get_side s d = x.
Proof. unfold hside. destruct (hp_store h i) as [s|]; [|discriminate]. intros [= <-]. eauto. Qed.

Lemma repeat_snoc {A} (x : A) n l : repeat x n ++ x :: l = repeat x (S n) ++ l.
Proof. induction n as [|n IH]; [reflexivity|]. cbn [repeat app]. rewrite IH. reflexivity. Qed.

(** ** The loop that moves entries, between two stores *)
Lemma move_loop_two d to from (Hne : to <> from) : forall n h i nf nt rest A,
  hside h from d = Some (HALF nf (Some (repeat Null i ++ rest))) -> length rest = n ->
  hside h to d = Some (HALF nt (Some (A ++ repeat Undef n))) -> length A = (nt + i)%nat ->
  exists h', move_loop n h d to from i = Some h' /\
    hside h' from d = Some (HALF nf (Some (repeat Null (i + n)))) /\
    hside h' to d = Some (HALF nt (Some (A ++ rest))) /\
    only h h' (fun j e => (j = to \/ j = from) /\ e = d) /\ same_freed h h'.
Proof.
  induction n as [|n IH]; intros h i nf nt rest A Hf Hl Ht HA.
  - apply list_len0 in Hl. subst rest. exists h. cbn [move_loop]. rewrite Nat.add_0_r. rewrite app_nil_r in *.
    split; [reflexivity|]. split; [assumption|]. split; [assumption|]. split; [intros ? ? ?; reflexivity|split; reflexivity].
  - apply list_lenS in Hl. destruct Hl as [v [rest' [-> Hl]]].
    destruct (hside_some _ _ _ _ Hf) as [sf [Ef Gf]]. destruct (hside_some _ _ _ _ Ht) as [st [Et Gt]].
    cbn [move_loop]. rewrite Ef, Et, Gf, Gt. unfold half_get. cbn [h_arr h_num].
    rewrite nth_error_at by (rewrite repeat_length; reflexivity).
    cbn [repeat] in Ht.
    destruct (ks_set_ok h d to (nt + i) v nt A _ Undef Ht (eq_sym HA)) as [h1 [E1 [T1 [O1 F1]]]]. rewrite E1.
    assert (Hf1 : hside h1 from d = Some (HALF nf (Some (repeat Null i ++ v :: rest')))).
    { rewrite O1; [exact Hf|]. intros [Hc _]. apply Hne. symmetry. exact Hc. }
    destruct (ks_set_ok h1 d from i Null nf _ _ v Hf1) as [h2 [E2 [T2 [O2 F2]]]]; [rewrite repeat_length; reflexivity|]. rewrite E2.
    rewrite repeat_snoc in T2.
    assert (Ht2 : hside h2 to d = Some (HALF nt (Some ((A ++ [v]) ++ repeat Undef n)))).
    { rewrite O2; [rewrite <- app_assoc; exact T1|]. intros [Hc _]. apply Hne. exact Hc. }
    destruct (IH h2 (S i) nf nt rest' (A ++ [v]) T2 Hl Ht2) as [h' [E' [Hf' [Ht' [O' F']]]]]; [rewrite app_length; cbn [length]; lia|].
    exists h'. split; [exact E'|]. split; [rewrite Hf'; replace (i + S n)%nat with (S i + n)%nat by lia; reflexivity|]. split; [rewrite Ht', <- app_assoc; reflexivity|].
    split.
    + eapply only_trans; [|exact O']. eapply only_trans; (eapply only_weak; [|eassumption]); cbn; intros j e [-> ->]; auto.
    + eapply same_freed_trans; [|exact F']. eapply same_freed_trans; eassumption.
Qed.

(** ... and within one store *)
Lemma move_loop_self d to : forall n h i nt rest B,
  hside h to d = Some (HALF nt (Some (repeat Null i ++ rest ++ B ++ repeat Undef n))) -> length rest = n -> length B = i -> nt = (i + n)%nat ->
  exists h', move_loop n h d to to i = Some h' /\
    hside h' to d = Some (HALF nt (Some (repeat Null nt ++ B ++ rest))) /\
    only h h' (fun j e => j = to /\ e = d) /\ same_freed h h'.
Proof.
  induction n as [|n IH]; intros h i nt rest B Ht Hl HB Hn.
  - apply list_len0 in Hl. subst rest. exists h. cbn [move_loop]. rewrite Nat.add_0_r in Hn. subst i. cbn [repeat app] in Ht.
    split; [reflexivity|]. split; [subst nt; rewrite app_nil_r in *; exact Ht|]. split; [intros ? ? ?; reflexivity|split; reflexivity].
  - apply list_lenS in Hl. destruct Hl as [v [rest' [-> Hl]]].
    destruct (hside_some _ _ _ _ Ht) as [st [Et Gt]].
    cbn [move_loop]. rewrite Et, Gt. unfold half_get. cbn [h_arr h_num].
    rewrite <- app_comm_cons. rewrite nth_error_at by (rewrite repeat_length; reflexivity).
    assert (Ht1 : hside h to d = Some (HALF nt (Some ((repeat Null i ++ v :: rest' ++ B) ++ Undef :: repeat Undef n)))).
    { rewrite Ht. f_equal. f_equal. f_equal. rewrite <- !app_assoc. cbn [app]. rewrite <- !app_assoc. reflexivity. }
    destruct (ks_set_ok h d to (nt + i) v nt _ _ Undef Ht1) as [h1 [E1 [T1 [O1 F1]]]].
    { rewrite app_length. cbn [length]. rewrite app_length, repeat_length. lia. }
    rewrite E1.
    assert (T1' : hside h1 to d = Some (HALF nt (Some (repeat Null i ++ v :: (rest' ++ (B ++ [v]) ++ repeat Undef n))))).
    { rewrite T1. f_equal. f_equal. f_equal. rewrite <- !app_assoc. cbn [app]. rewrite <- !app_assoc. reflexivity. }
    destruct (ks_set_ok h1 d to i Null nt _ _ v T1') as [h2 [E2 [T2 [O2 F2]]]]; [rewrite repeat_length; reflexivity|]. rewrite E2.
    rewrite repeat_snoc in T2.
    destruct (IH h2 (S i) nt rest' (B ++ [v]) T2 Hl) as [h' [E' [Ht' [O' F']]]]; [rewrite app_length; cbn [length]; lia|lia|].
    exists h'. split; [exact E'|]. split; [rewrite Ht', <- app_assoc; reflexivity|]. split.
    + eapply only_trans; [|exact O']. eapply only_trans; eassumption.
    + eapply same_freed_trans; [|exact F']. eapply same_freed_trans; eassumption.
Qed.

(** ** Representation *)
Definition cells (l : slots) : list cell := map cell_of l.
Definition arr_of (l : slots) : option (list cell) := match l with [] => None | _ => Some (cells l) end.
Definition hrep (x : half) (l : slots) : Prop := h_num x = length l /\ (h_arr x = Some (cells l) \/ h_arr x = None /\ l = []).

Lemma cells_none n : cells (repeat None n) = repeat Null n.
Proof. unfold cells. induction n as [|n IH]; cbn [repeat map]; [|rewrite IH]; reflexivity. Qed.

Lemma hrep_new n : hrep (new_half n) (repeat None n).
Proof.
  unfold new_half. destruct (Nat.ltb_spec 0 n).
  - split; cbn; [rewrite repeat_length; reflexivity|]. left. rewrite cells_none. reflexivity.
  - replace n with 0%nat by lia. split; [reflexivity|]. right. split; reflexivity.
Qed.

Lemma hrep_set x l pos v : hrep x l -> (pos < length l)%nat -> exists x', half_set x pos (Ptr v) = Some x' /\ hrep x' (set_nth l pos (Some v)).
Proof.
  intros [Hn Ha] Hp. destruct Ha as [Ha|[_ ->]]; [|cbn in Hp; lia].
  assert (E : arr_set (cells l) pos (Ptr v) = Some (cells (set_nth l pos (Some v)))).
  { clear Hn Ha x. revert pos Hp. induction l as [|y l IH]; intros pos Hp; [cbn in Hp; lia|].
    destruct pos as [|pos]; [reflexivity|]. cbn [cells map arr_set set_nth]. cbn [length] in Hp. fold (cells l). rewrite IH by lia. reflexivity. }
  exists (HALF (h_num x) (Some (cells (set_nth l pos (Some v))))). unfold half_set. rewrite Ha, E. split; [reflexivity|].
  split; cbn; [|left; reflexivity]. rewrite Hn. clear. revert pos. induction l as [|y l IH]; intros [|pos]; cbn [set_nth length]; auto.
Qed.

Lemma hrep_get x l pos : hrep x l -> (if (pos <? h_num x)%nat then half_get x pos else Some Null) = Some (cell_of (nth pos l None)).
Proof.
  intros [Hn Ha]. rewrite Hn. destruct (Nat.ltb_spec pos (length l)) as [Hp|Hp].
  - unfold half_get. destruct Ha as [Ha|[_ ->]]; [|cbn in Hp; lia]. rewrite Ha. unfold cells. rewrite nth_error_map.
    rewrite (nth_error_nth' l None Hp). reflexivity.
  - rewrite nth_overflow by lia. reflexivity.
Qed.

Lemma hrep_arr x l : hrep x l -> match h_arr x with None => [] | Some a => a end = cells l.
Proof. intros [_ [->|[-> ->]]]; reflexivity. Qed.

(** ** Append *)
Lemma append_side_two h d to from x y tl fl : to <> from -> hside h to d = Some x -> hside h from d = Some y -> hrep x tl -> hrep y fl ->
  exists h' x' y', append_side h d to from = Some h' /\ hside h' to d = Some x' /\ hside h' from d = Some y' /\
    hrep x' (tl ++ fl) /\ hrep y' (repeat None (length fl)) /\
    only h h' (fun j e => (j = to \/ j = from) /\ e = d) /\ same_freed h h'.
Proof.
  intros Hne Hx Hy Rx Ry. unfold append_side.
  destruct (hside_some _ _ _ _ Hy) as [sf [Ef Gf]]. rewrite Ef, Gf.
  pose proof (hrep_arr _ _ Rx) as Ax. destruct Rx as [Nx Rx]. destruct Ry as [Ny Ry]. rewrite Ny.
  destruct (Nat.ltb_spec 0 (length fl)) as [Hpos|Hz].
  2:{ assert (Hfl : fl = []) by (destruct fl; [reflexivity|cbn in Hz; lia]). subst fl. exists h, x, y.
      split; [reflexivity|]. split; [assumption|]. split; [assumption|]. rewrite app_nil_r. split; [split; assumption|].
      split; [split; [exact Ny|exact Ry]|]. split; [intros ? ? ?; reflexivity|split; reflexivity]. }
  destruct Ry as [Ry|[_ Hc]]; [|subst fl; cbn in Hpos; lia].
  destruct (with_half_ok h to d (fun x => Some (half_grow x (length fl))) x _ Hx eq_refl) as [h1 [E1 [T1 [O1 F1]]]]. rewrite E1.
  unfold half_grow in T1. rewrite Ax in T1.
  assert (Hy1 : hside h1 from d = Some (HALF (h_num y) (Some (repeat Null 0 ++ cells fl)))).
  { rewrite O1; [|intros [Hc _]; auto]. rewrite Hy. destruct y as [ny ay]. cbn in Ry |- *. rewrite Ry. reflexivity. }
  destruct (move_loop_two d to from Hne (length fl) h1 0 _ _ _ _ Hy1 (map_length _ _) T1) as [h2 [E2 [Hf2 [Ht2 [O2 F2]]]]].
  { unfold cells. rewrite map_length, Nx. lia. }
  rewrite E2. destruct (hside_some _ _ _ _ Hf2) as [sf2 [Ef2 Gf2]]. rewrite Ef2, Gf2. cbn [h_num].
  destruct (with_half_ok h2 to d (fun x0 => Some (HALF (h_num x0 + h_num y) (h_arr x0))) _ _ Ht2 eq_refl) as [h3 [E3 [T3 [O3 F3]]]].
  exists h3. eexists. eexists. split; [exact E3|]. split; [exact T3|]. split; [rewrite O3; [exact Hf2|intros [Hc _]; auto]|].
  split; [split; cbn; [rewrite app_length; lia|left; unfold cells; rewrite map_app; reflexivity]|].
  split; [split; cbn; [rewrite repeat_length; exact Ny|left; rewrite cells_none; reflexivity]|]. split.
  - eapply only_trans; [eapply only_trans; [|exact O2]|]; (eapply only_weak; [|eassumption]); cbn; intros j e [-> ->]; auto.
  - eapply same_freed_trans; [eapply same_freed_trans; [exact F1|exact F2]|exact F3].
Qed.

Lemma append_side_self h d to x tl : hside h to d = Some x -> hrep x tl ->
  exists h' x', append_side h d to to = Some h' /\ hside h' to d = Some x' /\ hrep x' (repeat None (length tl) ++ tl) /\
    only h h' (fun j e => j = to /\ e = d) /\ same_freed h h'.
Proof.
  intros Hx Rx. unfold append_side. destruct (hside_some _ _ _ _ Hx) as [sf [Ef Gf]]. rewrite Ef, Gf.
  pose proof (hrep_arr _ _ Rx) as Ax. destruct Rx as [Nx Rx]. rewrite Nx.
  destruct (Nat.ltb_spec 0 (length tl)) as [Hpos|Hz].
  2:{ assert (Hfl : tl = []) by (destruct tl; [reflexivity|cbn in Hz; lia]). subst tl. exists h, x.
      split; [reflexivity|]. split; [assumption|]. split; [split; assumption|]. split; [intros ? ? ?; reflexivity|split; reflexivity]. }
  destruct (with_half_ok h to d (fun x => Some (half_grow x (length tl))) x _ Hx eq_refl) as [h1 [E1 [T1 [O1 F1]]]]. rewrite E1.
  unfold half_grow in T1. rewrite Ax in T1.
  destruct (move_loop_self d to (length tl) h1 0 (h_num x) (cells tl) [] T1 (map_length _ _) eq_refl Nx) as [h2 [E2 [Ht2 [O2 F2]]]].
  rewrite E2. destruct (hside_some _ _ _ _ Ht2) as [sf2 [Ef2 Gf2]]. rewrite Ef2, Gf2. cbn [h_num].
  destruct (with_half_ok h2 to d (fun x0 => Some (HALF (h_num x0 + h_num x) (h_arr x0))) _ _ Ht2 eq_refl) as [h3 [E3 [T3 [O3 F3]]]].
  exists h3. eexists. split; [exact E3|]. split; [exact T3|].
  split; [split; cbn; [rewrite app_length, repeat_length; lia|left; unfold cells; rewrite map_app; fold (cells (repeat None (length tl))); rewrite cells_none, Nx; reflexivity]|]. split.
  - eapply only_trans; [eapply only_trans; [|exact O2]|]; eassumption.
  - eapply same_freed_trans; [eapply same_freed_trans; [exact F1|exact F2]|exact F3].
Qed.

(** ** Free *)
Lemma free_loop_spec : forall l pre freed, NoDup (freed ++ objects l) ->
  free_loop (length l) (length pre) (pre ++ cells l) freed = Some (freed ++ objects l).
Proof.
  induction l as [|o l IH]; intros pre freed Hnd; cbn [length free_loop objects flat_map]; [rewrite app_nil_r; reflexivity|].
  cbn [cells map]. rewrite nth_error_at by reflexivity. fold (cells l).
  replace (pre ++ cell_of o :: cells l) with ((pre ++ [cell_of o]) ++ cells l) by (rewrite <- app_assoc; reflexivity).
  replace (S (length pre)) with (length (pre ++ [cell_of o])) by (rewrite app_length; cbn [length]; lia).
  destruct o as [n|]; cbn [cell_of free_cell app].
  - cbn [objects flat_map] in Hnd. fold (objects l) in Hnd |- *. cbn [app] in Hnd.
    destruct (existsb (Nat.eqb n) freed) eqn:E.
    + exfalso. apply existsb_exists in E. destruct E as [m [Hin Hm]]. apply Nat.eqb_eq in Hm. subst m.
      apply NoDup_remove_2 in Hnd. apply Hnd. apply in_or_app. left. exact Hin.
    + rewrite IH by (rewrite <- app_assoc; exact Hnd). rewrite <- app_assoc. reflexivity.
  - fold (objects l). apply IH. exact Hnd.
Qed.
Lemma free_half_spec x l freed : hrep x l -> NoDup (freed ++ objects l) -> free_half x freed = Some (freed ++ objects l).
Proof.
  intros [Hn Ha] Hnd. unfold free_half. destruct Ha as [->|[-> ->]]; [|cbn; rewrite app_nil_r; reflexivity].
  rewrite Hn. exact (free_loop_spec l [] freed Hnd).
Qed.

(** ** The relation between memory and the lists *)
Definition sside (s : shelf) (i : nat) (d : side) : option slots := match s i with Some p => Some (pick d p) | None => None end.
Definition rel (h : heap) (s : shelf) : Prop :=
  forall i d, match hside h i d, sside s i d with Some x, Some l => hrep x l | None, None => True | _, _ => False end.

Lemma rel_some h s i d l : rel h s -> sside s i d = Some l -> exists x, hside h i d = Some x /\ hrep x l.
Proof. intros R E. specialize (R i d). rewrite E in R. destruct (hside h i d) as [x|]; [|contradiction]. eauto. Qed.
Lemma sside_shset s i v j d : sside (shset s i v) j d = if Nat.eqb j i then (match v with Some p => Some (pick d p) | None => None end) else sside s j d.
Proof. unfold sside, shset. destruct (Nat.eqb j i); reflexivity. Qed.
Lemma pick_place d e p l : pick e (place d p l) = if side_eq_dec e d then l else pick e p.
Proof. destruct d, e, p; reflexivity. Qed.

Lemma rel_new h s i k c : rel h s -> rel (ks_new h i k c) (shset s i (Some (repeat None k, repeat None c))).
Proof.
  intros R j d. rewrite sside_shset. unfold ks_new. rewrite hside_put. destruct (Nat.eqb j i); [|apply R].
  destruct d; apply hrep_new.
Qed.

Lemma rel_set h s d i pos v p : rel h s -> s i = Some p -> (pos < length (pick d p))%nat ->
  exists h', ks_set h d i pos (Ptr v) = Some h' /\ rel h' (shset s i (Some (place d p (set_nth (pick d p) pos (Some v))))) /\ same_freed h h'.
Proof.
  intros R Es Hp. assert (E : sside s i d = Some (pick d p)) by (unfold sside; rewrite Es; reflexivity).
  destruct (rel_some _ _ _ _ _ R E) as [x [Hx Rx]]. destruct (hrep_set _ _ _ v Rx Hp) as [x' [Ex' Rx']].
  destruct (with_half_ok h i d (fun x => half_set x pos (Ptr v)) x x' Hx Ex') as [h' [E' [T' [O' F']]]].
  exists h'. split; [exact E'|]. split; [|exact F']. intros j e. rewrite sside_shset. destruct (Nat.eqb j i) eqn:Ej.
  - apply Nat.eqb_eq in Ej. subst j. rewrite pick_place. destruct (side_eq_dec e d) as [->|Hne].
    + rewrite T'. exact Rx'.
    + rewrite O' by (intros [_ Hc]; auto). specialize (R i e). unfold sside in R. rewrite Es in R. exact R.
  - apply Nat.eqb_neq in Ej. rewrite O' by (intros [Hc _]; auto). apply R.
Qed.

Lemma rel_append h s t f tk tc fk fc : rel h s -> s t = Some (tk, tc) -> s f = Some (fk, fc) ->
  exists h', ks_append h t f = Some h' /\ rel h' (fst (sh_step s (KAppend t f))) /\ same_freed h h'.
Proof.
  intros R Et Ef. unfold ks_append. cbn [sh_step]. rewrite Et, Ef.
  assert (Htk : sside s t Keys = Some tk) by (unfold sside; rewrite Et; reflexivity).
  assert (Htc : sside s t Certs = Some tc) by (unfold sside; rewrite Et; reflexivity).
  assert (Hfk : sside s f Keys = Some fk) by (unfold sside; rewrite Ef; reflexivity).
  assert (Hfc : sside s f Certs = Some fc) by (unfold sside; rewrite Ef; reflexivity).
  destruct (rel_some _ _ _ _ _ R Htk) as [xk [Xk Rk]]. destruct (rel_some _ _ _ _ _ R Htc) as [xc [Xc Rc]].
  destruct (rel_some _ _ _ _ _ R Hfk) as [yk [Yk Sk]]. destruct (rel_some _ _ _ _ _ R Hfc) as [yc [Yc Sc]].
  destruct (Nat.eqb t f) eqn:Etf.
  - apply Nat.eqb_eq in Etf. subst f.
    destruct (append_side_self h Keys t xk tk Xk Rk) as [h1 [x1 [E1 [T1 [Q1 [O1 F1]]]]]]. rewrite E1.
    destruct (append_side_self h1 Certs t xc tc) as [h2 [x2 [E2 [T2 [Q2 [O2 F2]]]]]];
      [rewrite O1; [exact Xc|intros [_ Hc]; discriminate]|exact Rc|].
    rewrite E2. exists h2. split; [reflexivity|]. split; [|eapply same_freed_trans; eassumption].
    cbn [fst]. intros j e. rewrite sside_shset. destruct (Nat.eqb j t) eqn:Ej.
    + apply Nat.eqb_eq in Ej. subst j. destruct e; cbn [pick fst snd].
      * rewrite O2 by (intros [_ Hc]; discriminate). rewrite T1. exact Q1.
      * rewrite T2. exact Q2.
    + apply Nat.eqb_neq in Ej. rewrite O2, O1 by (intros [Hc _]; auto). apply R.
  - apply Nat.eqb_neq in Etf.
    destruct (append_side_two h Keys t f xk yk tk fk Etf Xk Yk Rk Sk) as [h1 [x1 [y1 [E1 [T1 [U1 [Q1 [S1 [O1 F1]]]]]]]]]. rewrite E1.
    destruct (append_side_two h1 Certs t f xc yc tc fc Etf) as [h2 [x2 [y2 [E2 [T2 [U2 [Q2 [S2 [O2 F2]]]]]]]]];
      [rewrite O1; [exact Xc|intros [_ Hc]; discriminate]|rewrite O1; [exact Yc|intros [_ Hc]; discriminate]|exact Rc|exact Sc|].
    rewrite E2. exists h2. split; [reflexivity|]. split; [|eapply same_freed_trans; eassumption].
    cbn [fst]. intros j e. rewrite sside_shset. destruct (Nat.eqb j f) eqn:Ej.
    + apply Nat.eqb_eq in Ej. subst j. destruct e; cbn [pick fst snd].
      * rewrite O2 by (intros [_ Hc]; discriminate). rewrite U1. exact S1.
      * rewrite U2. exact S2.
    + rewrite sside_shset. destruct (Nat.eqb j t) eqn:Ejt.
      * apply Nat.eqb_eq in Ejt. subst j. destruct e; cbn [pick fst snd].
        -- rewrite O2 by (intros [_ Hc]; discriminate). rewrite T1. exact Q1.
        -- rewrite T2. exact Q2.
      * apply Nat.eqb_neq in Ej. apply Nat.eqb_neq in Ejt. rewrite O2, O1 by (intros [[Hc|Hc] _]; auto). apply R.
Qed.

Lemma rel_free h s i p : rel h s -> s i = Some p -> (forall d, NoDup (freed d h ++ objects (pick d p))) ->
  exists h', ks_free h (Some i) = Some h' /\ rel h' (shset s i None) /\ (forall d, freed d h' = freed d h ++ objects (pick d p)).
Proof.
  intros R Es Hnd. unfold ks_free.
  assert (Hk : sside s i Keys = Some (pick Keys p)) by (unfold sside; rewrite Es; reflexivity).
  assert (Hc : sside s i Certs = Some (pick Certs p)) by (unfold sside; rewrite Es; reflexivity).
  destruct (rel_some _ _ _ _ _ R Hk) as [xk [Xk Rk]]. destruct (rel_some _ _ _ _ _ R Hc) as [xc [Xc Rc]].
  destruct (hside_some _ _ _ _ Xk) as [st [Est Gk]]. rewrite Est.
  unfold hside in Xc. rewrite Est in Xc. injection Xc as Gc. cbn [get_side] in Gk, Gc. rewrite Gk, Gc.
  pose proof (free_half_spec _ _ _ Rk (Hnd Keys)) as E1. pose proof (free_half_spec _ _ _ Rc (Hnd Certs)) as E2. cbn [freed] in E1, E2. rewrite E1, E2.
  eexists. split; [reflexivity|]. split; [|intros []; reflexivity].
  intros j d. rewrite sside_shset. unfold hside, hp_store. cbn [hp_stores]. rewrite hp_store_sset. destruct (Nat.eqb j i); [exact I|].
  specialize (R j d). unfold hside in R. exact R.
Qed.

(** ** Which objects are where *)
Lemma NoDup_app_l {A} (a b : list A) : NoDup (a ++ b) -> NoDup a.
Proof.
  induction a as [|x a IH]; intros H; [constructor|]. cbn [app] in H. inversion H as [|? ? H1 H2]. subst.
  constructor; [intros Hc; apply H1; apply in_or_app; left; exact Hc|]. apply IH. exact H2.
Qed.

Lemma held_perm d s ids ids' : Permutation ids ids' -> Permutation (held d s ids) (held d s ids').
Proof. intros H. unfold held. apply Permutation_flat_map. exact H. Qed.
Lemma held_cons d s i ids : held d s (i :: ids) = (match s i with Some p => objects (pick d p) | None => [] end) ++ held d s ids.
Proof. reflexivity. Qed.
Lemma held_other d s i v ids : ~ In i ids -> held d (shset s i v) ids = held d s ids.
Proof.
  intros Hn. unfold held. induction ids as [|j ids IH]; [reflexivity|]. cbn [flat_map].
  rewrite IH by (intros Hc; apply Hn; right; exact Hc). unfold shset at 1.
  destruct (Nat.eqb_spec j i) as [->|_]; [exfalso; apply Hn; left; reflexivity|reflexivity].
Qed.
Lemma covers_split s ids i : covers s ids -> s i <> None -> exists r, Permutation ids (i :: r) /\ ~ In i r /\ NoDup r.
Proof.
  intros [Hnd Hc] Hi. destruct (in_split _ _ (Hc i Hi)) as [a [b ->]]. exists (a ++ b).
  split; [symmetry; apply Permutation_middle|]. apply NoDup_remove in Hnd. destruct Hnd as [H1 H2]. split; assumption.
Qed.
Lemma objects_app a b : objects (a ++ b) = objects a ++ objects b.
Proof. unfold objects. apply flat_map_app. Qed.
Lemma objects_none n : objects (repeat None n) = [].
Proof. induction n as [|n IH]; [reflexivity|exact IH]. Qed.

Lemma objects_set l pos v : (pos < length l)%nat ->
  exists lost, Permutation (v :: objects l) (objects (set_nth l pos (Some v)) ++ lost) /\ (nth_error l pos = Some None -> lost = []).
Proof.
  revert pos. induction l as [|o l IH]; intros pos Hp; [cbn in Hp; lia|]. destruct pos as [|pos].
  - cbn [set_nth]. destruct o as [n|]; cbn [objects flat_map app]; fold (objects l).
    + exists [n]. split; [|discriminate]. constructor. apply Permutation_cons_append.
    + exists []. rewrite app_nil_r. split; [apply Permutation_refl|reflexivity].
  - cbn [length] in Hp. destruct (IH pos ltac:(lia)) as [lost [HP HL]]. exists lost. split; [|exact HL].
    cbn [set_nth objects flat_map]. fold (objects l). fold (objects (set_nth l pos (Some v))).
    destruct o as [n|]; cbn [app]; [|exact HP]. rewrite perm_swap. constructor. exact HP.
Qed.

Lemma covers_held_unique d s ids ids' : covers s ids -> covers s ids' -> Permutation (held d s ids) (held d s ids').
Proof.
  intros [N1 C1] [N2 C2].
  set (lv := fun i => match s i with Some _ => true | None => false end).
  assert (F : forall l, held d s l = held d s (filter lv l)).
  { induction l as [|i l IH]; [reflexivity|]. cbn [filter]. rewrite held_cons, IH. unfold lv at 2. destruct (s i) eqn:E; [rewrite held_cons, E|]; reflexivity. }
  rewrite (F ids), (F ids'). apply held_perm. apply NoDup_Permutation; [apply NoDup_filter; assumption|apply NoDup_filter; assumption|].
  intros i. rewrite !filter_In. unfold lv. destruct (s i) eqn:E; [|split; intros [_ Hc]; discriminate].
  split; intros _; (split; [|reflexivity]); [apply C2|apply C1]; congruence.
Qed.

(** Everything handed over so far is released, in a slot, or was overwritten. *)
Definition acct (given : side -> list nat) (h : heap) (s : shelf) (lost : side -> list nat) : Prop :=
  forall d, exists ids, covers s ids /\ Permutation (given d) (freed d h ++ held d s ids ++ lost d).
Definition add_given (g : side -> list nat) (o : kop) : side -> list nat := fun d => g d ++ handed d [o].

Lemma acct_nodup given h s lost d i p : acct given h s lost -> NoDup (given d) -> s i = Some p -> NoDup (freed d h ++ objects (pick d p)).
Proof.
  intros A Hnd Es. destruct (A d) as [ids [Hc HP]]. eapply Permutation_NoDup in Hnd; [|exact HP].
  destruct (covers_split _ _ i Hc ltac:(congruence)) as [r [Hr _]].
  assert (HP2 : Permutation (freed d h ++ held d s ids ++ lost d) ((freed d h ++ objects (pick d p)) ++ held d s r ++ lost d)).
  { rewrite (held_perm d s _ _ Hr), held_cons, Es, !app_assoc. apply Permutation_refl. }
  eapply Permutation_NoDup in Hnd; [|exact HP2]. apply NoDup_app_l in Hnd. exact Hnd.
Qed.
Lemma freed_same h h' d : same_freed h h' -> freed d h' = freed d h.
Proof. intros [A B]. destruct d; assumption. Qed.
Lemma handed_set d e i pos v : handed d [KSet e i pos v] = if side_eq_dec d e then [v] else [].
Proof. destruct d, e; reflexivity. Qed.

Lemma kstep_ok given h s lost o : rel h s -> acct given h s lost -> (forall d, NoDup (given d)) -> kop_ok s o ->
  exists h' lost', kstep h o = Some (h', snd (sh_step s o)) /\ rel h' (fst (sh_step s o)) /\
    acct (add_given given o) h' (fst (sh_step s o)) lost' /\ (kop_free_slot s o -> (forall d, lost d = []) -> forall d, lost' d = []).
Proof.
  intros R A Hnd Hok.
  assert (SAME : forall d, handed d [o] = [] -> add_given given o d = given d) by (intros d Hd; unfold add_given; rewrite Hd, app_nil_r; reflexivity).
  destruct o as [i k c|t f|i|d i pos v|d i|d i pos]; cbn [kop_ok] in Hok.
  - (* new *)
    exists (ks_new h i k c), lost. cbn [kstep sh_step fst snd]. split; [reflexivity|]. split; [apply rel_new; exact R|].
    split; [|auto]. intros d. destruct (A d) as [ids [[N1 C1] HP]]. rewrite SAME by (destruct d; reflexivity).
    assert (HH : forall l, ~ In i l -> held d (shset s i (Some (repeat None k, repeat None c))) (i :: l) = held d s l).
    { intros l Hl. rewrite held_cons, held_other by exact Hl. unfold shset. rewrite Nat.eqb_refl. destruct d; cbn [pick fst snd]; rewrite objects_none; reflexivity. }
    destruct (in_dec Nat.eq_dec i ids) as [Hin|Hin].
    + exists ids. split.
      * split; [exact N1|]. intros j. unfold shset. destruct (Nat.eqb_spec j i) as [->|_]; auto.
      * destruct (in_split _ _ Hin) as [a [b Eab]].
        assert (Hp : Permutation ids (i :: a ++ b)) by (subst ids; symmetry; apply Permutation_middle).
        assert (Hni : ~ In i (a ++ b)) by (subst ids; apply NoDup_remove_2 in N1; exact N1).
        rewrite (held_perm d _ _ _ Hp), HH by exact Hni. rewrite (held_perm d s _ _ Hp), held_cons, Hok in HP. exact HP.
    + exists (i :: ids). split.
      * split; [constructor; assumption|]. intros j. unfold shset. destruct (Nat.eqb_spec j i) as [->|_]; [left; reflexivity|right; auto].
      * rewrite HH by exact Hin. exact HP.
  - (* append *)
    destruct Hok as [Ht Hf]. destruct (s t) as [[tk tc]|] eqn:Et; [|contradiction]. destruct (s f) as [[fk fc]|] eqn:Ef; [|contradiction].
    destruct (rel_append _ _ _ _ _ _ _ _ R Et Ef) as [h' [E' [R' F']]]. exists h', lost. cbn [kstep]. rewrite E'.
    split; [cbn [sh_step]; rewrite Et, Ef; destruct (Nat.eqb t f); reflexivity|]. split; [exact R'|]. split; [|auto].
    intros d. rewrite SAME by (destruct d; reflexivity). destruct (A d) as [ids [Hc HP]]. rewrite (freed_same _ _ _ F').
    destruct (covers_split _ _ t Hc ltac:(congruence)) as [r [Hr [Hnr Ndr]]]. cbn [sh_step]. rewrite Et, Ef.
    destruct (Nat.eqb_spec t f) as [<-|Hne]; cbn [fst].
    + exists ids. split.
      * destruct Hc as [N1 C1]. split; [exact N1|]. intros j. unfold shset. destruct (Nat.eqb_spec j t) as [->|_]; [intros _; apply C1; congruence|auto].
      * rewrite HP. apply Permutation_app_head. apply Permutation_app_tail. rewrite (held_perm d _ _ _ Hr), (held_perm d (shset _ _ _) _ _ Hr).
        rewrite !held_cons, held_other by exact Hnr. unfold shset. rewrite Nat.eqb_refl, Et. apply Permutation_app_tail.
        destruct d; cbn [pick fst snd]; rewrite objects_app, objects_none; apply Permutation_refl.
    + assert (Hfr : In f r). { destruct Hc as [_ C1]. assert (In f ids) by (apply C1; congruence). eapply Permutation_in in H; [|exact Hr]. destruct H; [contradiction|assumption]. }
      destruct (in_split _ _ Hfr) as [a [b Eab]].
      assert (Hp : Permutation ids (t :: f :: a ++ b)).
      { rewrite Hr. apply perm_skip. subst r. symmetry. apply Permutation_middle. }
      assert (Hnf : ~ In f (a ++ b)) by (subst r; apply NoDup_remove_2 in Ndr; exact Ndr).
      assert (Hnt : ~ In t (a ++ b)) by (subst r; intros Hx; apply Hnr; apply in_or_app; apply in_app_or in Hx; destruct Hx; [left|right; right]; assumption).
      exists ids. split.
      * destruct Hc as [N1 C1]. split; [exact N1|]. intros j. unfold shset. destruct (Nat.eqb_spec j f) as [->|_]; [intros _; apply C1; congruence|].
        destruct (Nat.eqb_spec j t) as [->|_]; [intros _; apply C1; congruence|auto].
      * rewrite HP. apply Permutation_app_head. apply Permutation_app_tail. rewrite (held_perm d _ _ _ Hp), (held_perm d (shset _ _ _) _ _ Hp).
        rewrite !held_cons, !held_other by assumption. unfold shset. rewrite !Nat.eqb_refl, Et, Ef.
        destruct (Nat.eqb_spec t f) as [|_]; [contradiction|].
        destruct d; cbn [pick fst snd]; rewrite objects_app, objects_none, !app_assoc; rewrite app_nil_r; apply Permutation_refl.
  - (* free *)
    destruct (s i) as [p|] eqn:Es; [|contradiction].
    destruct (rel_free h s i p R Es (fun d => acct_nodup _ _ _ _ d i p A (Hnd d) Es)) as [h' [E' [R' F']]].
    exists h', lost. cbn [kstep sh_step fst snd]. rewrite E'. split; [reflexivity|]. split; [exact R'|]. split; [|auto].
    intros d. rewrite SAME by (destruct d; reflexivity). destruct (A d) as [ids [Hc HP]]. rewrite F'.
    destruct (covers_split _ _ i Hc ltac:(congruence)) as [r [Hr [Hnr Ndr]]]. exists r. split.
    + split; [exact Ndr|]. intros j. unfold shset. destruct (Nat.eqb_spec j i) as [->|Hne]; [congruence|]. intros Hj.
      destruct Hc as [_ C1]. specialize (C1 j Hj). eapply Permutation_in in C1; [|exact Hr]. destruct C1; [congruence|assumption].
    + rewrite HP, (held_perm d s _ _ Hr), held_cons, Es, held_other, !app_assoc by exact Hnr. apply Permutation_refl.
  - (* set *)
    destruct Hok as [p [Es Hp]]. destruct (rel_set h s d i pos v p R Es Hp) as [h' [E' [R' F']]].
    destruct (objects_set (pick d p) pos v Hp) as [l1 [HL1 HL2]].
    exists h', (fun e => if side_eq_dec e d then l1 ++ lost e else lost e). cbn [kstep sh_step]. rewrite E', Es. cbn [fst snd].
    split; [reflexivity|]. split; [exact R'|]. split.
    + intros e. destruct (A e) as [ids [Hc HP]]. rewrite (freed_same _ _ _ F'). exists ids.
      destruct (covers_split _ _ i Hc ltac:(congruence)) as [r [Hr [Hnr Ndr]]]. split.
      * destruct Hc as [N1 C1]. split; [exact N1|]. intros j. unfold shset. destruct (Nat.eqb_spec j i) as [->|_]; [intros _; apply C1; congruence|auto].
      * unfold add_given. rewrite handed_set. rewrite (held_perm e (shset _ _ _) _ _ Hr), held_cons, held_other by exact Hnr.
        rewrite (held_perm e _ _ _ Hr), held_cons, Es in HP.
        unfold shset at 1. rewrite Nat.eqb_refl, pick_place. destruct (side_eq_dec e d) as [->|Hne].
        -- rewrite HP. rewrite <- !app_assoc. apply Permutation_app_head.
           transitivity ((v :: objects (pick d p)) ++ held d s r ++ lost d).
           { cbn [app]. rewrite (Permutation_app_comm (lost d) [v]), !app_assoc. cbn [app].
             change (v :: (objects (pick d p) ++ held d s r) ++ lost d) with ([v] ++ ((objects (pick d p) ++ held d s r) ++ lost d)).
             rewrite <- !app_assoc. change ([v] ++ lost d) with ([v] ++ lost d). rewrite !app_assoc.
             apply Permutation_app_tail. rewrite <- !app_assoc. rewrite (app_assoc (objects (pick d p))). apply Permutation_app_comm. }
           rewrite HL1. rewrite <- !app_assoc. apply Permutation_app_head. rewrite !app_assoc. apply Permutation_app_tail. apply Permutation_app_comm.
        -- rewrite app_nil_r, HP, <- !app_assoc. apply Permutation_refl.
    + intros [p' [Ep' Hf]] Hl e. rewrite Es in Ep'. injection Ep' as <-. destruct (side_eq_dec e d) as [->|_]; [rewrite HL2 by exact Hf|]; rewrite Hl; reflexivity.
  - (* num *)
    exists h, lost. cbn [kstep sh_step fst snd]. destruct (s i) as [p|] eqn:Es; [|contradiction].
    assert (E : sside s i d = Some (pick d p)) by (unfold sside; rewrite Es; reflexivity).
    destruct (rel_some _ _ _ _ _ R E) as [x [Hx [Rx _]]]. unfold ks_num. destruct (hside_some _ _ _ _ Hx) as [st [Est Gx]]. rewrite Est, Gx, Rx.
    split; [reflexivity|]. split; [exact R|]. split; [|auto]. intros e. rewrite SAME by (destruct e; reflexivity). apply A.
  - (* get *)
    exists h, lost. cbn [kstep sh_step fst snd]. destruct (s i) as [p|] eqn:Es; [|contradiction].
    assert (E : sside s i d = Some (pick d p)) by (unfold sside; rewrite Es; reflexivity).
    destruct (rel_some _ _ _ _ _ R E) as [x [Hx Rx]]. unfold ks_get. destruct (hside_some _ _ _ _ Hx) as [st [Est Gx]]. rewrite Est, Gx.
    cbv zeta. rewrite (hrep_get _ _ pos Rx).
    split; [reflexivity|]. split; [exact R|]. split; [|auto]. intros e. rewrite SAME by (destruct e; reflexivity). apply A.
Qed.

Lemma handed_cons d o os : handed d (o :: os) = handed d [o] ++ handed d os.
Proof. destruct o as [| | |e ? ? ?| |]; try reflexivity. destruct d, e; reflexivity. Qed.

Lemma krun_ok : forall os given h s lost, rel h s -> acct given h s lost -> (forall d, NoDup (given d ++ handed d os)) -> legal_from s os ->
  exists h' lost', krun h os = Some (h', snd (sh_run s os)) /\ rel h' (fst (sh_run s os)) /\
    acct (fun d => given d ++ handed d os) h' (fst (sh_run s os)) lost' /\ (tidy_from s os -> (forall d, lost d = []) -> forall d, lost' d = []).
Proof.
  induction os as [|o os IH]; intros given h s lost R A Hnd HL.
  - exists h, lost. cbn [krun sh_run fst snd]. split; [reflexivity|]. split; [exact R|]. split; [|auto].
    intros d. destruct (A d) as [ids [Hc HP]]. exists ids. split; [exact Hc|]. cbn [handed]. rewrite app_nil_r. exact HP.
  - cbn [legal_from] in HL. destruct HL as [Hok HL].
    assert (Hnd0 : forall d, NoDup (given d)) by (intros d; specialize (Hnd d); apply NoDup_app_l in Hnd; exact Hnd).
    destruct (kstep_ok given h s lost o R A Hnd0 Hok) as [h1 [l1 [E1 [R1 [A1 T1]]]]].
    destruct (IH (add_given given o) h1 _ l1 R1 A1) as [h2 [l2 [E2 [R2 [A2 T2]]]]]; [|exact HL|].
    { intros d. unfold add_given. rewrite <- app_assoc, <- handed_cons. apply Hnd. }
    exists h2, l2. cbn [krun sh_run]. rewrite E1, E2.
    destruct (sh_step s o) as [s1 r1] eqn:Es. cbn [fst snd] in *. destruct (sh_run s1 os) as [s2 rs] eqn:Er. cbn [fst snd] in *.
    split; [reflexivity|]. split; [exact R2|]. split.
    + intros d. destruct (A2 d) as [ids [Hc HP]]. exists ids. split; [exact Hc|]. unfold add_given in HP. rewrite handed_cons, app_assoc. exact HP.
    + cbn [tidy_from]. rewrite Es. cbn [fst]. intros [Tf Tr] Hl. apply T2; [exact Tr|]. apply T1; assumption.
Qed.

Lemma rel0 : rel heap0 sh0.
Proof. intros i d. reflexivity. Qed.
Lemma acct0 : acct (fun _ => []) heap0 sh0 (fun _ => []).
Proof. intros d. exists []. split; [split; [constructor|intros i Hi; contradiction Hi; reflexivity]|]. destruct d; apply Permutation_refl. Qed.

Lemma store_lists os : legal os -> exists h, krun heap0 os = Some (h, snd (sh_run sh0 os)).
Proof.
  intros [HL [Hk Hc]]. destruct (krun_ok os _ _ _ _ rel0 acct0) as [h [l [E _]]]; [intros []; assumption|exact HL|]. eauto.
Qed.
Lemma store_accounts os h outs : legal os -> krun heap0 os = Some (h, outs) ->
  forall d ids, covers (fst (sh_run sh0 os)) ids ->
    NoDup (freed d h ++ held d (fst (sh_run sh0 os)) ids) /\
    incl (freed d h ++ held d (fst (sh_run sh0 os)) ids) (handed d os) /\
    (tidy os -> Permutation (handed d os) (freed d h ++ held d (fst (sh_run sh0 os)) ids)).
Proof.
  intros [HL [Hk Hc]] E d ids Hids. destruct (krun_ok os _ _ _ _ rel0 acct0) as [h' [l [E' [_ [A T]]]]]; [intros []; assumption|exact HL|].
  rewrite E in E'. injection E' as <- _. destruct (A d) as [ids' [Hc' HP]]. cbn [app] in HP.
  rewrite (covers_held_unique d _ _ _ Hc' Hids) in HP.
  assert (Hnd : NoDup (handed d os)) by (destruct d; assumption).
  split; [|split].
  - eapply Permutation_NoDup in Hnd; [|exact HP]. rewrite app_assoc in Hnd. apply NoDup_app_l in Hnd. exact Hnd.
  - intros x Hx. eapply Permutation_in; [symmetry; exact HP|]. rewrite app_assoc. apply in_or_app. left. exact Hx.
  - intros Tt. specialize (T Tt (fun _ => eq_refl) d). rewrite T, app_nil_r in HP. exact HP.
Qed.
Lemma all_released os h outs : legal os -> tidy os -> krun heap0 os = Some (h, outs) ->
  (forall i, fst (sh_run sh0 os) i = None) -> forall d, Permutation (handed d os) (freed d h).
Proof.
  intros HL HT E Hno d. destruct (store_accounts os h outs HL E d []) as [_ [_ H]].
  - split; [constructor|]. intros i Hi. contradiction Hi. apply Hno.
  - specialize (H HT). cbn in H. rewrite app_nil_r in H. exact H.
Qed.
