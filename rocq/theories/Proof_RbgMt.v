(** Proofs: calls of rbg.c from several threads. *)
From Coq Require Import Lia.
From Verif Require Import Base Lib Model_Gost89 Model_Params Model_Rbg Model_RbgMt Spec_RbgMt Proof_Rbg.
#[local] Opaque bit_x bit_s bit_e low_bit status_nolock get_byte rbg0.

(** The state and result at the end of a call, from any point of it. *)
Definition loop_end (rv : bool) (k : nat) (out : list N) (r : rbg) : rbg * rout :=
  let '(r2, l) := get_bytes_loop k r in (r2, ROUT rv (out ++ l)).
Definition bits_end (rv : bool) (k : nat) (out : list N) (m j : nat) (b : N) (r : rbg) : rbg * rout :=
  let '(r1, b1) := byte_bits m r (N.of_nat j) b in loop_end rv k (out ++ [b1]) r1.
Definition size_of (o : rop) : nat := loop_bound (match o with RBytes n => n | _ => 0%Z end).
Definition add_bit (b : N) (x : list N) (j : nat) : N := w8 (N.lor b (N.shiftl (low_bit x) (N.of_nat j))).
Fixpoint cleaned (m k : nat) (r : rbg) : rbg := match m with O => r | S m' => cleaned m' (S k) (clean_store k r) end.
Definition ending (p : mpc) (e : env) (o : rop) (r : rbg) : rbg * rout :=
  match p with
  | QStart | QFree => body r e o
  | QStatus => let '(r', b) := status_nolock r e in (r', ROUT b [])
  | QCheck => if r_init r then loop_end true (size_of o) [] r else let '(r', rv) := status_nolock r e in loop_end rv (size_of o) [] r'
  | QSeed => let '(r', rv) := status_nolock r e in loop_end rv (size_of o) [] r'
  | QLoop rv k out => loop_end rv k out r
  | QX rv k out j b => bits_end rv k out (8 - j) j b r
  | QS rv k out j b x => bits_end rv k out (7 - j) (S j) (add_bit b x j) (bit_e (bit_s r x))
  | QE rv k out j b x => bits_end rv k out (7 - j) (S j) (add_bit b x j) (bit_e r)
  | QClean k => (cleaned (4 - k) k r, ROUT true [])
  | QUnlock out => (r, out)
  end.
Definition pc_ok (p : mpc) : Prop :=
  match p with QX _ _ _ j _ | QS _ _ _ j _ _ | QE _ _ _ j _ _ => (j < 8)%nat | QClean k => (k < 4)%nat | _ => True end.
Definition inside (p : mpc) : Prop := match p with QStart | QFree => False | _ => True end.
Definition idle (p : mpc) : Prop := match p with QStart | QFree => True | _ => False end.

Lemma entry_ending e o r : ending (entry o) e o r = body r e o /\ pc_ok (entry o) /\ inside (entry o).
Proof.
  destruct o as [|n|]; (split; [|split; [cbn; lia || exact I|exact I]]).
  - reflexivity.
  - cbn [entry ending body]. unfold bytes_body, loop_end, size_of. destruct (r_init r).
    + destruct (get_bytes_loop (loop_bound n) r). reflexivity.
    + destruct (status_nolock r e) as [r1 rv]. destruct (get_bytes_loop (loop_bound n) r1). reflexivity.
  - Transparent rbg0. reflexivity. Opaque rbg0.
Qed.
(** The step inside a call. *)
Definition inner (p : mpc) (e : env) (o : rop) (r : rbg) : option (rbg * mpc) :=
  match p with
  | QStart | QFree | QUnlock _ => None
  | QStatus => let '(r', rv) := status_nolock r e in Some (r', QUnlock (ROUT rv []))
  | QCheck => Some (r, if r_init r then QLoop true (size_of o) [] else QSeed)
  | QSeed => let '(r', rv) := status_nolock r e in Some (r', QLoop rv (size_of o) [])
  | QLoop rv O out => Some (r, QUnlock (ROUT rv out))
  | QLoop rv (S k) out => Some (r, QX rv k out 0%nat 0)
  | QX rv k out j b => Some (r, QS rv k out j b (bit_x r))
  | QS rv k out j b x => Some (bit_s r x, QE rv k out j b x)
  | QE rv k out j b x => Some (bit_e r, if Nat.eqb j 7 then QLoop rv k (out ++ [add_bit b x j]) else QX rv k out (S j) (add_bit b x j))
  | QClean k => Some (clean_store k r, if Nat.eqb k 3 then QUnlock (ROUT true []) else QClean (S k))
  end.
Lemma inner_ending p e o r r' p' : pc_ok p -> inner p e o r = Some (r', p') -> ending p' e o r' = ending p e o r /\ pc_ok p' /\ inside p'.
Proof.
  intros Hok H. destruct p; cbn [inner] in H; try discriminate.
  - destruct (status_nolock r e) as [r1 rv] eqn:E. inversion H; subst. cbn [ending]. rewrite E. repeat split.
  - inversion H; subst. cbn [ending]. destruct (r_init r') eqn:Ei; cbn [ending]; repeat split.
  - destruct (status_nolock r e) as [r1 rv] eqn:E. inversion H; subst. cbn [ending]. rewrite E. repeat split.
  - destruct left as [|k]; inversion H; subst; clear H.
    + cbn [ending]. unfold loop_end. cbn [get_bytes_loop]. rewrite app_nil_r. repeat split.
    + cbn [ending pc_ok]. split; [|split; [lia|exact I]]. unfold bits_end, loop_end. Transparent get_byte. cbn [get_bytes_loop]. unfold get_byte.
      change (8 - 0)%nat with 8%nat. change (N.of_nat 0) with 0. destruct (byte_bits 8 r' 0 0) as [r1 b1]. destruct (get_bytes_loop k r1) as [r2 l]. rewrite <- app_assoc. reflexivity.
      Opaque get_byte.
  - inversion H; subst; clear H. cbn [ending pc_ok] in *. split; [|split; [exact Hok|exact I]]. unfold bits_end.
    replace (8 - j)%nat with (S (7 - j)) by lia. cbn [byte_bits]. unfold get_bit. replace (N.of_nat (S j)) with (N.of_nat j + 1) by lia. reflexivity.
  - inversion H; subst; clear H. cbn [ending pc_ok] in *. split; [reflexivity|split; [exact Hok|exact I]].
  - inversion H; subst; clear H. cbn [pc_ok] in Hok. destruct (Nat.eqb_spec j 7) as [->|Hj].
    + cbn [ending pc_ok]. split; [|split; exact I]. unfold bits_end. cbn [Nat.sub byte_bits]. reflexivity.
    + cbn [ending pc_ok]. split; [|split; [lia|exact I]]. replace (8 - S j)%nat with (7 - j)%nat by lia. reflexivity.
  - inversion H; subst; clear H. cbn [pc_ok] in Hok. destruct (Nat.eqb_spec k 3) as [->|Hk].
    + cbn [ending]. repeat split.
    + cbn [ending pc_ok]. split; [|split; [lia|exact I]]. replace (4 - k)%nat with (S (4 - S k)) by lia. reflexivity.
Qed.
(** How far a call is from its end. *)
Definition dist (o : rop) (p : mpc) : nat :=
  match p with
  | QStart | QFree => 0
  | QStatus => 2
  | QCheck => 30 * size_of o + 10
  | QSeed => 30 * size_of o + 9
  | QLoop _ k _ => 30 * k + 2
  | QX _ k _ j _ => 30 * k + 3 * (8 - j) + 5
  | QS _ k _ j _ _ => 30 * k + 3 * (8 - j) + 4
  | QE _ k _ j _ _ => 30 * k + 3 * (8 - j) + 3
  | QClean k => 6 - k
  | QUnlock _ => 1
  end.
Lemma inner_dist p e o r r' p' : pc_ok p -> inner p e o r = Some (r', p') -> (dist o p' < dist o p)%nat.
Proof.
  intros Hok H. destruct p; cbn [inner] in H; try discriminate; cbn [pc_ok] in Hok.
  - destruct (status_nolock r e); inversion H; subst; cbn; lia.
  - inversion H; subst. destruct (r_init r'); cbn [dist]; lia.
  - destruct (status_nolock r e); inversion H; subst; cbn [dist]; lia.
  - destruct left; inversion H; subst; cbn [dist]; lia.
  - inversion H; subst; cbn [dist]; lia.
  - inversion H; subst; cbn [dist]; lia.
  - inversion H; subst. destruct (Nat.eqb_spec j 7); cbn [dist]; lia.
  - inversion H; subst. destruct (Nat.eqb_spec k 3); cbn [dist]; lia.
Qed.
Lemma inner_some p e o r : inside p -> (exists out, p = QUnlock out) \/ exists r' p', inner p e o r = Some (r', p').
Proof.
  intros H. destruct p; cbn [inside] in H; try contradiction; cbn [inner]; eauto.
  - right. destruct (status_nolock r e); eauto.
  - right. destruct (status_nolock r e); eauto.
  - right. destruct left; eauto.
Qed.

Lemma mset_same ts i t : mset ts i t i = Some t.
Proof. unfold mset. rewrite Nat.eqb_refl. reflexivity. Qed.
Lemma mset_other ts i j t : j <> i -> mset ts i t j = ts j.
Proof. intros H. unfold mset. destruct (Nat.eqb_spec j i); congruence. Qed.

(** The step, by cases. *)
Lemma step_inner w i t e o rest r' p' : mw_threads w i = Some t -> m_todo t = (e, o) :: rest -> inner (m_pc t) e o (mw_r w) = Some (r', p') ->
  mstep w i = Some (MW r' (mw_lock w) (mset (mw_threads w) i (MT p' (m_todo t) (m_done t)))).
Proof.
  intros Ht Hd H. unfold mstep. rewrite Ht, Hd. destruct (m_pc t); cbn [inner] in H; try discriminate; unfold size_of in H.
  - destruct (status_nolock (mw_r w) e). inversion H; subst. reflexivity.
  - inversion H; subst. reflexivity.
  - destruct (status_nolock (mw_r w) e). inversion H; subst. reflexivity.
  - destruct left; inversion H; subst; reflexivity.
  - inversion H; subst. reflexivity.
  - inversion H; subst. reflexivity.
  - inversion H; subst. reflexivity.
  - inversion H; subst. reflexivity.
Qed.
Lemma step_free w i t : mw_threads w i = Some t -> m_pc t = QFree ->
  mstep w i = match mlock_free (mw_lock w) with None => None | Some l => Some (MW (mw_r w) l (mset (mw_threads w) i (MT QStart (m_todo t) (m_done t)))) end.
Proof. intros Ht Hp. unfold mstep. rewrite Ht, Hp. reflexivity. Qed.
Lemma step_none w i t : mw_threads w i = Some t -> m_todo t = [] -> m_pc t <> QFree -> mstep w i = Some w.
Proof. intros Ht Hd Hp. unfold mstep. rewrite Ht, Hd. destruct (m_pc t); reflexivity || contradiction. Qed.
Lemma step_lock w i t e o rest : mw_threads w i = Some t -> m_todo t = (e, o) :: rest -> m_pc t = QStart ->
  mstep w i = match mlock_take (mw_lock w) e i with
              | None => None
              | Some None => Some w
              | Some (Some l) => Some (MW (mw_r w) l (mset (mw_threads w) i (MT (entry o) (m_todo t) (m_done t))))
              end.
Proof. intros Ht Hd Hp. unfold mstep. rewrite Ht, Hd, Hp. reflexivity. Qed.
Lemma step_unlock w i t e o rest out : mw_threads w i = Some t -> m_todo t = (e, o) :: rest -> m_pc t = QUnlock out ->
  mstep w i = match mlock_give (mw_lock w) i with
              | None => None
              | Some l => Some (MW (mw_r w) l (mset (mw_threads w) i (MT (match o with RCleanup => QFree | _ => QStart end) rest (m_done t ++ [out]))))
              end.
Proof. intros Ht Hd Hp. unfold mstep. rewrite Ht, Hd, Hp. reflexivity. Qed.

(** ** the invariant *)
Lemma of_thread_app {A} i (a b : list (nat * A)) : of_thread i (a ++ b) = of_thread i a ++ of_thread i b.
Proof. unfold of_thread. rewrite filter_app, map_app. reflexivity. Qed.
Lemma of_thread_one {A} i j (x : A) : of_thread i [(j, x)] = if Nat.eqb j i then [x] else [].
Proof. unfold of_thread. cbn [filter fst]. destruct (Nat.eqb j i); reflexivity. Qed.
Lemma results_snoc order i eo : results (order ++ [(i, eo)]) = results order ++ [(i, snd (body (fst (brun rbg0 (map snd order))) (fst eo) (snd eo)))].
Proof.
  unfold results. rewrite !map_app. cbn [map fst snd]. rewrite brun_app. destruct (brun rbg0 (map snd order)) as [r outs] eqn:E.
  assert (L : length outs = length order) by (pose proof (brun_len (map snd order) rbg0) as X; rewrite E, map_length in X; exact X).
  destruct eo as [e o]. cbn [brun fst snd]. destruct (body r e o) as [r1 out]. cbn [snd fst].
  assert (C : forall {A B} (a : list A) (b : list B) x y, length a = length b -> combine (a ++ [x]) (b ++ [y]) = combine a b ++ [(x, y)]).
  { clear. intros A B a. induction a as [|u a IH]; intros [|v b] x y H; try discriminate; [reflexivity|]. cbn in *. rewrite IH by congruence. reflexivity. }
  apply C. rewrite map_length, L. reflexivity.
Qed.
Lemma state_snoc (order : list (nat * (env * rop))) (i : nat) eo : fst (brun rbg0 (map snd (order ++ [(i, eo)]))) = fst (body (fst (brun rbg0 (map snd order))) (fst eo) (snd eo)).
Proof.
  rewrite map_app. cbn [map snd]. rewrite brun_app. destruct (brun rbg0 (map snd order)) as [r outs]. destruct eo as [e o]. cbn [brun fst snd].
  destruct (body r e o) as [r1 out]. reflexivity.
Qed.

Section T.
Variable reqs : list (list (env * rop)).
Definition st (order : list (nat * (env * rop))) : rbg := fst (brun rbg0 (map snd order)).
Definition linv (order : list (nat * (env * rop))) (w : mworld) : Prop :=
  match mw_lock w with
  | KNone => order = [] /\ mw_r w = st order /\ forall i t, mw_threads w i = Some t -> m_pc t = QStart
  | KNull => order = [] /\ forall i t, mw_threads w i = Some t -> m_pc t <> QFree
  | KLive None | KFreed => mw_r w = st order /\ forall i t, mw_threads w i = Some t -> idle (m_pc t)
  | KLive (Some i) =>
      (exists t e o rest, mw_threads w i = Some t /\ m_todo t = (e, o) :: rest /\ inside (m_pc t) /\ pc_ok (m_pc t) /\ ending (m_pc t) e o (mw_r w) = body (st order) e o) /\
      forall j t, mw_threads w j = Some t -> j <> i -> idle (m_pc t)
  end.
Definition minv (order : list (nat * (env * rop))) (w : mworld) : Prop := linear reqs w order /\ linv order w.

Lemma linear_pc w order i t p r l : linear reqs w order -> mw_threads w i = Some t ->
  linear reqs (MW r l (mset (mw_threads w) i (MT p (m_todo t) (m_done t)))) order.
Proof.
  intros [L1 L2] Ht. split.
  - intros j. cbn [mw_threads]. destruct (Nat.eq_dec j i) as [->|Hj]; [|rewrite mset_other by exact Hj; apply L1].
    rewrite mset_same. rewrite L1, Ht. split; discriminate.
  - intros j t' H'. cbn [mw_threads] in H'. destruct (Nat.eq_dec j i) as [->|Hj]; [|rewrite mset_other in H' by exact Hj; apply L2; exact H'].
    rewrite mset_same in H'. inversion H'; subst. cbn [m_todo m_done]. apply L2. exact Ht.
Qed.
Lemma linear_done w order i t e o rest p r l : linear reqs w order -> mw_threads w i = Some t -> m_todo t = (e, o) :: rest ->
  linear reqs (MW r l (mset (mw_threads w) i (MT p rest (m_done t ++ [snd (body (st order) e o)])))) (order ++ [(i, (e, o))]).
Proof.
  intros [L1 L2] Ht Hd. split.
  - intros j. cbn [mw_threads]. destruct (Nat.eq_dec j i) as [->|Hj]; [|rewrite mset_other by exact Hj; apply L1].
    rewrite mset_same. rewrite L1, Ht. split; discriminate.
  - intros j t' H'. cbn [mw_threads] in H'. rewrite results_snoc, !of_thread_app, !of_thread_one. cbn [fst snd].
    destruct (Nat.eq_dec j i) as [->|Hj].
    + rewrite mset_same in H'. inversion H'; subst. cbn [m_todo m_done]. rewrite Nat.eqb_refl. destruct (L2 i t Ht) as [A B]. rewrite A, B, Hd, <- app_assoc. split; reflexivity.
    + rewrite mset_other in H' by exact Hj. destruct (Nat.eqb_spec i j); [congruence|]. rewrite !app_nil_r. apply L2. exact H'.
Qed.
Lemma minv_start : minv [] (mwith reqs).
Proof.
  split; [split|].
  - intros i. cbn [mwith mw_threads]. destruct (nth_error reqs i); split; congruence.
  - intros i t H. cbn [mwith mw_threads] in H. destruct (nth_error reqs i) as [q|]; [|discriminate]. inversion H; subst. split; reflexivity.
  - split; [reflexivity|]. split; [reflexivity|]. intros i t H. cbn [mwith mw_threads] in H. destruct (nth_error reqs i); [|discriminate]. inversion H. reflexivity.
Qed.
Lemma idle_not_inside p : idle p -> inside p -> False.
Proof. destruct p; cbn; tauto. Qed.
Lemma minv_step order w i w' : minv order w -> mstep w i = Some w' -> exists l, minv (order ++ l) w'.
Proof.
  intros [L Hl] E. destruct (mw_threads w i) as [t|] eqn:Ht; [|unfold mstep in E; rewrite Ht in E; inversion E; subst; exists []; rewrite app_nil_r; split; assumption].
  assert (Same : Some w = Some w' -> exists l, minv (order ++ l) w') by (intros [= <-]; exists []; rewrite app_nil_r; split; assumption).
  assert (Cases : m_pc t = QStart \/ m_pc t = QFree \/ inside (m_pc t)) by (destruct (m_pc t); cbn; tauto).
  destruct Cases as [Hp|[Hp|Hp]].
  - (* dstu_lock *)
    destruct (m_todo t) as [|[e o] rest] eqn:Hd; [rewrite (step_none w i t Ht Hd) in E by (rewrite Hp; discriminate); apply Same; exact E|].
    rewrite (step_lock w i t e o rest Ht Hd Hp) in E. unfold linv in Hl. destruct (entry_ending e o (st order)) as (E1 & E2 & E3).
    assert (Taken : mw_r w = st order -> (forall j t', mw_threads w j = Some t' -> idle (m_pc t')) ->
      linv order (MW (mw_r w) (KLive (Some i)) (mset (mw_threads w) i (MT (entry o) (m_todo t) (m_done t))))).
    { intros Hr Hall. split.
      - exists (MT (entry o) (m_todo t) (m_done t)), e, o, rest. cbn [mw_threads mw_r]. rewrite mset_same. cbn [m_pc m_todo]. rewrite Hr. repeat split; assumption.
      - cbn [mw_threads]. intros j t' H' Hj. rewrite mset_other in H' by exact Hj. exact (Hall j t' H'). }
    destruct (mw_lock w) as [| |[j|]|] eqn:El; cbn [mlock_take] in E; [| |apply Same; exact E| |discriminate].
    + inversion E; subst; clear E Same. exists []. rewrite app_nil_r. split; [apply linear_pc; assumption|].
      destruct Hl as (H0 & Hr & Hall). destruct (e_lock e).
      * apply Taken; [exact Hr|]. intros j t' H'. rewrite (Hall j t' H'). exact I.
      * split; [exact H0|]. cbn [mw_threads]. intros j t' H'. destruct (Nat.eq_dec j i) as [->|Hj]; [rewrite mset_same in H'; inversion H'; subst; cbn [m_pc]; destruct o; discriminate|].
        rewrite mset_other in H' by exact Hj. rewrite (Hall j t' H'). discriminate.
    + inversion E; subst; clear E Same. exists []. rewrite app_nil_r. split; [apply linear_pc; assumption|].
      destruct Hl as (H0 & Hall). split; [exact H0|]. cbn [mw_threads]. intros j t' H'. destruct (Nat.eq_dec j i) as [->|Hj]; [rewrite mset_same in H'; inversion H'; subst; cbn [m_pc]; destruct o; discriminate|].
      rewrite mset_other in H' by exact Hj. exact (Hall j t' H').
    + inversion E; subst; clear E Same. exists []. rewrite app_nil_r. split; [apply linear_pc; assumption|]. destruct Hl as (Hr & Hall). apply Taken; assumption.
  - (* lock_free *)
    rewrite (step_free w i t Ht Hp) in E. unfold linv in Hl. destruct (mw_lock w) as [| |[j|]|] eqn:El; cbn [mlock_free] in E; try discriminate.
    + destruct Hl as (_ & Hall). exfalso. apply (Hall i t Ht Hp).
    + inversion E; subst; clear E Same. exists []. rewrite app_nil_r. split; [apply linear_pc; assumption|]. destruct Hl as (Hr & Hall). split; [exact Hr|].
      cbn [mw_threads]. intros j t' H'. destruct (Nat.eq_dec j i) as [->|Hj]; [rewrite mset_same in H'; inversion H'; subst; exact I|]. rewrite mset_other in H' by exact Hj. exact (Hall j t' H').
  - (* inside *)
    destruct (m_todo t) as [|[e o] rest] eqn:Hd.
    { rewrite (step_none w i t Ht Hd) in E by (intros X; rewrite X in Hp; exact Hp). apply Same; exact E. }
    destruct (inner_some (m_pc t) e o (mw_r w) Hp) as [(out & Hu)|(r' & p' & Hin)].
    + rewrite (step_unlock w i t e o rest out Ht Hd Hu) in E. unfold linv in Hl. destruct (mw_lock w) as [| |[j|]|] eqn:El; cbn [mlock_give] in E; try discriminate.
      destruct (Nat.eqb_spec i j) as [<-|]; [|discriminate]. inversion E; subst; clear E Same.
      destruct Hl as [(t0 & e0 & o0 & rest0 & A1 & A2 & A3 & A4 & A5) Hall]. rewrite Ht in A1. inversion A1; subst t0. rewrite Hd in A2. inversion A2; subst e0 o0 rest0.
      rewrite Hu in A5. cbn [ending] in A5. exists [(i, (e, o))].
      replace out with (snd (body (st order) e o)) by (rewrite <- A5; reflexivity). split; [apply linear_done; assumption|].
      split; cbn [mw_r mw_threads].
      * unfold st. rewrite state_snoc. cbn [fst snd]. fold (st order). rewrite <- A5. reflexivity.
      * intros j t' H'. destruct (Nat.eq_dec j i) as [->|Hj]; [rewrite mset_same in H'; inversion H'; subst; cbn [m_pc]; destruct o; exact I|].
        rewrite mset_other in H' by exact Hj. apply (Hall j t' H' Hj).
    + rewrite (step_inner w i t e o rest r' p' Ht Hd Hin) in E. inversion E; subst; clear E Same. exists []. rewrite app_nil_r. split; [apply linear_pc; assumption|].
      unfold linv in Hl |- *. cbn [mw_lock mw_threads mw_r]. destruct (mw_lock w) as [| |[j|]|] eqn:El.
      * destruct Hl as (_ & _ & Hall). rewrite (Hall i t Ht) in Hp. destruct Hp.
      * destruct Hl as (H0 & Hall). split; [exact H0|]. intros j t' H'. destruct (Nat.eq_dec j i) as [->|Hj]; [|rewrite mset_other in H' by exact Hj; exact (Hall j t' H')].
        rewrite mset_same in H'. inversion H'; subst. cbn [m_pc]. clear - Hin. intros ->. destruct (m_pc t); cbn [inner] in Hin; try discriminate.
        -- destruct (status_nolock _ _); discriminate.
        -- destruct (r_init (mw_r w)); discriminate.
        -- destruct (status_nolock _ _); discriminate.
        -- destruct left; discriminate.
        -- destruct (Nat.eqb j 7); discriminate.
        -- destruct (Nat.eqb k 3); discriminate.
      * destruct Hl as [(t0 & e0 & o0 & rest0 & A1 & A2 & A3 & A4 & A5) Hall]. destruct (Nat.eq_dec i j) as [<-|Hj].
        -- rewrite Ht in A1. inversion A1; subst t0. rewrite Hd in A2. inversion A2; subst e0 o0 rest0.
           destruct (inner_ending _ _ _ _ _ _ A4 Hin) as (B1 & B2 & B3). split.
           ++ exists (MT p' (m_todo t) (m_done t)), e, o, rest. rewrite mset_same. cbn [m_pc m_todo]. rewrite B1. repeat split; assumption.
           ++ intros j t' H' Hj. rewrite mset_other in H' by exact Hj. apply (Hall j t' H' Hj).
        -- exfalso. apply (idle_not_inside (m_pc t)); [apply (Hall i t Ht Hj)|exact Hp].
      * destruct Hl as (_ & Hall). exfalso. apply (idle_not_inside (m_pc t)); [apply (Hall i t Ht)|exact Hp].
      * destruct Hl as (_ & Hall). exfalso. apply (idle_not_inside (m_pc t)); [apply (Hall i t Ht)|exact Hp].
Qed.
Lemma minv_run sched : forall order w w', minv order w -> mrun w sched = Some w' -> exists l, minv (order ++ l) w'.
Proof.
  induction sched as [|i sched IH]; intros order w w' H E; cbn [mrun] in E; [inversion E; subst; exists []; rewrite app_nil_r; exact H|].
  destruct (mstep w i) as [w1|] eqn:E1; [|discriminate]. destruct (minv_step _ _ _ _ H E1) as (l1 & H1). destruct (IH _ _ _ H1 E) as (l2 & H2).
  exists (l1 ++ l2). rewrite app_assoc. exact H2.
Qed.
Lemma mrun_app a : forall w b, mrun w (a ++ b) = match mrun w a with None => None | Some w1 => mrun w1 b end.
Proof. induction a as [|i a IH]; intros w b; [reflexivity|]. cbn [app mrun]. destruct (mstep w i); [apply IH|reflexivity]. Qed.

(** ** defined while nobody cleans up *)
Hypothesis NC : forall e o, calls reqs (e, o) -> e_lock e = true /\ o <> RCleanup.
Definition ninv (order : list (nat * (env * rop))) (w : mworld) : Prop :=
  minv order w /\ match mw_lock w with KNull | KFreed => False | _ => True end /\ forall i t, mw_threads w i = Some t -> m_pc t <> QFree.
Lemma in_calls order w i t e o rest : linear reqs w order -> mw_threads w i = Some t -> m_todo t = (e, o) :: rest -> calls reqs (e, o).
Proof.
  intros [_ L] Ht Hd. destruct (L i t Ht) as [A _]. exists (of_thread i order ++ m_todo t). split; [eapply nth_error_In, A|]. apply in_or_app. right. rewrite Hd. left. reflexivity.
Qed.
Lemma ninv_step order w i : ninv order w -> exists w' l, mstep w i = Some w' /\ ninv (order ++ l) w'.
Proof.
  intros (M & Hk & Hf). assert (D : exists w', mstep w i = Some w').
  { destruct M as [L Hl]. destruct (mw_threads w i) as [t|] eqn:Ht; [|exists w; unfold mstep; rewrite Ht; reflexivity].
    pose proof (Hf i t Ht) as Hnf.
    destruct (m_todo t) as [|[e o] rest] eqn:Hd; [exists w; exact (step_none w i t Ht Hd Hnf)|].
    assert (Cases : m_pc t = QStart \/ inside (m_pc t)) by (destruct (m_pc t); cbn; tauto). destruct Cases as [Hp|Hp].
    - rewrite (step_lock w i t e o rest Ht Hd Hp). destruct (mw_lock w) as [| |[j|]|]; cbn [mlock_take]; eauto; contradiction.
    - destruct (inner_some (m_pc t) e o (mw_r w) Hp) as [(out & Hu)|(r' & p' & Hin)]; [|rewrite (step_inner w i t e o rest r' p' Ht Hd Hin); eauto].
      rewrite (step_unlock w i t e o rest out Ht Hd Hu). unfold linv in Hl. destruct (mw_lock w) as [| |[j|]|] eqn:El; try contradiction.
      + destruct Hl as (_ & _ & Hall). rewrite (Hall i t Ht) in Hp. destruct Hp.
      + destruct (Nat.eq_dec i j) as [<-|Hj]; [cbn [mlock_give]; rewrite Nat.eqb_refl; eauto|].
        destruct Hl as [_ Hall]. exfalso. apply (idle_not_inside (m_pc t)); [apply (Hall i t Ht Hj)|exact Hp].
      + destruct Hl as [_ Hall]. exfalso. apply (idle_not_inside (m_pc t)); [apply (Hall i t Ht)|exact Hp]. }
  destruct D as (w' & E). destruct (minv_step _ _ _ _ M E) as (l & M'). exists w', l. split; [exact E|]. split; [exact M'|].
  destruct (mw_threads w i) as [t|] eqn:Ht; [|unfold mstep in E; rewrite Ht in E; inversion E; subst; split; assumption].
  pose proof (Hf i t Ht) as Hnf.
  destruct (m_todo t) as [|[e o] rest] eqn:Hd; [rewrite (step_none w i t Ht Hd Hnf) in E; inversion E; subst; split; assumption|].
  destruct (NC e o (in_calls order w i t e o rest (proj1 M) Ht Hd)) as [Ne No].
  assert (Cases : m_pc t = QStart \/ inside (m_pc t)) by (destruct (m_pc t); cbn; tauto).
  assert (Upd : forall r l t0, m_pc t0 <> QFree -> forall j t', mw_threads (MW r l (mset (mw_threads w) i t0)) j = Some t' -> m_pc t' <> QFree).
  { intros r0 l0 t0 H0 j t' H'. cbn [mw_threads] in H'. destruct (Nat.eq_dec j i) as [->|Hj]; [rewrite mset_same in H'; inversion H'; subst; exact H0|].
    rewrite mset_other in H' by exact Hj. apply (Hf j t' H'). }
  destruct Cases as [Hp|Hp].
  - rewrite (step_lock w i t e o rest Ht Hd Hp) in E. destruct (mw_lock w) as [| |[j|]|] eqn:El; cbn [mlock_take] in E; try contradiction.
    + rewrite Ne in E. inversion E; subst. split; [exact I|]. apply Upd. destruct o; discriminate.
    + inversion E; subst. rewrite El. split; [exact I|exact Hf].
    + inversion E; subst. split; [exact I|]. apply Upd. destruct o; discriminate.
  - destruct (inner_some (m_pc t) e o (mw_r w) Hp) as [(out & Hu)|(r' & p' & Hin)].
    + rewrite (step_unlock w i t e o rest out Ht Hd Hu) in E. destruct (mw_lock w) as [| |[j|]|]; cbn [mlock_give] in E; try discriminate.
      destruct (Nat.eqb i j); [|discriminate]. inversion E; subst. split; [exact I|]. apply Upd. destruct o; [discriminate|discriminate|contradiction].
    + rewrite (step_inner w i t e o rest r' p' Ht Hd Hin) in E. inversion E; subst. cbn [mw_lock]. split; [exact Hk|]. apply Upd. cbn [m_pc].
      intros ->. clear - Hin. destruct (m_pc t); cbn [inner] in Hin; try discriminate.
        -- destruct (status_nolock _ _); discriminate.
        -- destruct (r_init (mw_r w)); discriminate.
        -- destruct (status_nolock _ _); discriminate.
        -- destruct left; discriminate.
        -- destruct (Nat.eqb j 7); discriminate.
        -- destruct (Nat.eqb k 3); discriminate.
Qed.
Lemma ninv_start : ninv [] (mwith reqs).
Proof.
  split; [apply minv_start|]. split; [exact I|]. intros i t H. cbn [mwith mw_threads] in H. destruct (nth_error reqs i); [|discriminate]. inversion H. discriminate.
Qed.
Lemma ninv_run sched : forall order w, ninv order w -> exists w' l, mrun w sched = Some w' /\ ninv (order ++ l) w'.
Proof.
  induction sched as [|i sched IH]; intros order w H; [exists w, []; rewrite app_nil_r; split; [reflexivity|exact H]|].
  destruct (ninv_step order w i H) as (w1 & l1 & E1 & H1). destruct (IH _ _ H1) as (w2 & l2 & E2 & H2). exists w2, (l1 ++ l2). cbn [mrun]. rewrite E1. split; [exact E2|].
  rewrite app_assoc. exact H2.
Qed.

(** ** progress *)
Definition todo_at (w : mworld) (i : nat) : nat := match mw_threads w i with Some t => length (m_todo t) | None => 0 end.
Definition load_ (w : mworld) : nat := list_sum (map (todo_at w) (seq 0 (length reqs))).
Lemma owner_ends k : forall order w i t e o rest, ninv order w -> mw_lock w = KLive (Some i) -> mw_threads w i = Some t -> m_todo t = (e, o) :: rest ->
  (dist o (m_pc t) <= k)%nat -> exists m w' t', mrun w (repeat i m) = Some w' /\ mw_threads w' i = Some t' /\ m_todo t' = rest /\ forall j, j <> i -> mw_threads w' j = mw_threads w j.
Proof.
  induction k as [|k IH]; intros order w i t e o rest Hinv Hl Ht Hd Hk;
    pose proof Hinv as ((_ & H) & _ & _); unfold linv in H; rewrite Hl in H; destruct H as [(t0 & e0 & o0 & rest0 & A1 & A2 & A3 & A4 & A5) _];
    rewrite Ht in A1; inversion A1; subst t0; clear A1; rewrite Hd in A2; inversion A2; subst e0 o0 rest0; clear A2.
  - exfalso. destruct (m_pc t); cbn [dist inside pc_ok] in *; try lia; contradiction.
  - destruct (inner_some (m_pc t) e o (mw_r w) A3) as [(out & Hu)|(r' & p' & Hin)].
    + pose proof (step_unlock w i t e o rest out Ht Hd Hu) as E. rewrite Hl in E. cbn [mlock_give] in E. rewrite Nat.eqb_refl in E.
      eexists 1%nat, _, _. cbn [repeat mrun]. rewrite E. split; [reflexivity|]. cbn [mw_threads]. rewrite mset_same. split; [reflexivity|]. split; [reflexivity|]. intros j Hj. apply mset_other, Hj.
    + pose proof (step_inner w i t e o rest r' p' Ht Hd Hin) as E. destruct (ninv_step order w i Hinv) as (w1 & l1 & E1 & Hinv1). rewrite E in E1. inversion E1; subst w1; clear E1.
      destruct (IH _ _ i (MT p' (m_todo t) (m_done t)) e o rest Hinv1) as (m & w' & t' & B1 & B2 & B3 & B4); [exact Hl|apply mset_same|exact Hd| |].
      { cbn [m_pc]. pose proof (inner_dist _ _ _ _ _ _ A4 Hin). lia. }
      exists (S m), w', t'. cbn [repeat mrun]. rewrite E. split; [exact B1|]. split; [exact B2|]. split; [exact B3|]. intros j Hj. rewrite B4 by exact Hj. apply mset_other, Hj.
Qed.
Lemma sum_update (f g : nat -> nat) i n : (i < n)%nat -> (g i < f i)%nat -> (forall j, j <> i -> g j = f j) ->
  (list_sum (map g (seq 0 n)) < list_sum (map f (seq 0 n)))%nat.
Proof.
  intros Hi Hlt He. induction n; [lia|]. rewrite !seq_S, !map_app, !list_sum_app. cbn [map list_sum fold_right plus].
  destruct (Nat.eq_dec i n) as [->|Hne].
  - assert (map g (seq 0 n) = map f (seq 0 n)) as ->; [|lia]. apply map_ext_in. intros a Ha. apply in_seq in Ha. apply He. lia.
  - rewrite (He n) by lia. assert (list_sum (map g (seq 0 n)) < list_sum (map f (seq 0 n)))%nat by (apply IHn; lia). lia.
Qed.
Lemma thread_bound order w i t : linear reqs w order -> mw_threads w i = Some t -> (i < length reqs)%nat.
Proof. intros [L _] Ht. apply nth_error_Some. intros X. apply L in X. congruence. Qed.
Lemma one_more order w : ninv order w -> (exists i t, mw_threads w i = Some t /\ m_todo t <> []) -> exists sched w', mrun w sched = Some w' /\ (load_ w' < load_ w)%nat.
Proof.
  intros Hinv (i & t & Ht & Hne).
  assert (Own : forall order w i, ninv order w -> mw_lock w = KLive (Some i) -> exists sched w', mrun w sched = Some w' /\ (load_ w' < load_ w)%nat).
  { clear - NC. intros order w i Hinv Hl. pose proof Hinv as ((L & H) & _ & _). unfold linv in H. rewrite Hl in H. destruct H as [(t & e & o & rest & Ht & Hd & _) _].
    destruct (owner_ends _ order w i t e o rest Hinv Hl Ht Hd (Nat.le_refl _)) as (m & w' & t' & B1 & B2 & B3 & B4). exists (repeat i m), w'. split; [exact B1|].
    apply (sum_update _ _ i); [eapply thread_bound; eassumption| |].
    - unfold todo_at. rewrite B2, Ht, B3, Hd. cbn [length]. lia.
    - intros j Hj. unfold todo_at. rewrite B4 by exact Hj. reflexivity. }
  destruct (m_todo t) as [|[e o] rest] eqn:Hd; [contradiction|]. clear Hne.
  assert (Free : mw_r w = st order -> (forall j t', mw_threads w j = Some t' -> idle (m_pc t')) -> mlock_take (mw_lock w) e i = Some (Some (KLive (Some i))) ->
    exists sched w', mrun w sched = Some w' /\ (load_ w' < load_ w)%nat).
  { intros Hr Hall Hk. pose proof Hinv as (_ & _ & Hf). assert (Hp : m_pc t = QStart) by (pose proof (Hall i t Ht) as X; pose proof (Hf i t Ht); destruct (m_pc t); cbn in X; tauto || reflexivity).
    pose proof (step_lock w i t e o rest Ht Hd Hp) as E. rewrite Hk in E. destruct (ninv_step order w i Hinv) as (w1 & l1 & E1 & H1). rewrite E in E1. inversion E1; subst w1.
    destruct (Own _ _ i H1 eq_refl) as (sched & w' & S1 & S2). exists (i :: sched), w'. cbn [mrun]. rewrite E. split; [exact S1|].
    match type of S2 with (_ < load_ ?w1)%nat => assert (Eq : load_ w1 = load_ w); [|lia] end. unfold load_. f_equal. apply map_ext_in. intros j _. unfold todo_at. cbn [mw_threads].
    destruct (Nat.eq_dec j i) as [->|Hj]; [rewrite mset_same, Ht; reflexivity|rewrite mset_other by exact Hj; reflexivity]. }
  pose proof Hinv as ((L & H) & Hk & _). unfold linv in H. destruct (mw_lock w) as [| |[j|]|] eqn:El; try contradiction.
  - destruct H as (_ & Hr & Hall). apply Free; [exact Hr| |].
    + intros j t' H'. rewrite (Hall j t' H'). exact I.
    + cbn [mlock_take]. destruct (NC e o (in_calls order w i t e o rest L Ht Hd)) as [-> _]. reflexivity.
  - eapply Own; eassumption.
  - destruct H as (Hr & Hall). apply Free; [exact Hr|exact Hall|reflexivity].
Qed.
Lemma work_dec w order : linear reqs w order -> (exists i t, mw_threads w i = Some t /\ m_todo t <> []) \/ forall i t, mw_threads w i = Some t -> m_todo t = [].
Proof.
  intros L.
  assert (D : forall n, (exists i t, mw_threads w i = Some t /\ m_todo t <> []) \/ forall i t, (i < n)%nat -> mw_threads w i = Some t -> m_todo t = []).
  { induction n as [|n [IH|IH]]; [right; intros; lia|left; exact IH|].
    destruct (mw_threads w n) as [t|] eqn:Ht; [destruct (m_todo t) eqn:Htt|].
    - right. intros i t' Hi Ht'. destruct (Nat.eq_dec i n) as [->|]; [congruence|]. apply (IH i); auto; lia.
    - left. exists n, t. split; [auto|congruence].
    - right. intros i t' Hi Ht'. destruct (Nat.eq_dec i n) as [->|]; [congruence|]. apply (IH i); auto; lia. }
  destruct (D (length reqs)) as [H|H]; [left; exact H|right]. intros i t Ht. apply (H i); auto. eapply thread_bound; eassumption.
Qed.
Lemma all_end k : forall order w, ninv order w -> (load_ w <= k)%nat -> exists sched w', mrun w sched = Some w' /\ finished w'.
Proof.
  induction k as [|k IH]; intros order w Hinv Hk; (destruct (work_dec w order (proj1 (proj1 Hinv))) as [Hw|Hw];
    [destruct (one_more order w Hinv Hw) as (s1 & w1 & Hs1 & Hlt); [try lia]|exists [], w; split; [reflexivity|]; intros i t Ht; split; [exact (Hw i t Ht)|]]).
  1,3: pose proof Hinv as ((L & H) & Hkk & Hf); unfold linv in H; pose proof (Hf i t Ht) as X; destruct (mw_lock w) as [| |[j|]|] eqn:El; try contradiction;
    [apply H with (i := i); exact Ht
    |destruct H as [(t0 & e & o & rest & A1 & A2 & _) _]; rewrite (Hw j t0 A1) in A2; discriminate
    |destruct H as [_ Hall]; pose proof (Hall i t Ht); destruct (m_pc t); cbn in *; tauto || reflexivity].
  destruct (ninv_run s1 order w Hinv) as (w1' & l1 & E1 & H1). rewrite Hs1 in E1. inversion E1; subst w1'.
  destruct (IH _ _ H1) as (s2 & w2 & E2 & H2); [lia|]. exists (s1 ++ s2), w2. rewrite mrun_app, Hs1. split; assumption.
Qed.
End T.

(** ** a cleanup beside another thread *)
Lemma run_inside k : forall w i t e o rest, mw_threads w i = Some t -> m_todo t = (e, o) :: rest -> inside (m_pc t) -> pc_ok (m_pc t) -> (dist o (m_pc t) <= k)%nat ->
  exists m w' t' out, mrun w (repeat i m) = Some w' /\ mw_threads w' i = Some t' /\ m_todo t' = (e, o) :: rest /\ m_pc t' = QUnlock out /\
    mw_lock w' = mw_lock w /\ forall j, j <> i -> mw_threads w' j = mw_threads w j.
Proof.
  induction k as [|k IH]; intros w i t e o rest Ht Hd Hi Hok Hk.
  - exfalso. destruct (m_pc t); cbn [dist inside pc_ok] in *; try lia; contradiction.
  - destruct (inner_some (m_pc t) e o (mw_r w) Hi) as [(out & Hu)|(r' & p' & Hin)].
    + exists 0%nat, w, t, out. repeat split; assumption.
    + pose proof (step_inner w i t e o rest r' p' Ht Hd Hin) as E. destruct (inner_ending _ _ _ _ _ _ Hok Hin) as (_ & B2 & B3).
      pose proof (inner_dist _ _ _ _ _ _ Hok Hin) as Hlt.
      destruct (IH (MW r' (mw_lock w) (mset (mw_threads w) i (MT p' (m_todo t) (m_done t)))) i (MT p' (m_todo t) (m_done t)) e o rest) as (m & w' & t' & out & C1 & C2 & C3 & C4 & C5 & C6);
        [apply mset_same|exact Hd|exact B3|exact B2|cbn [m_pc]; lia|].
      exists (S m), w', t', out. cbn [repeat mrun]. rewrite E. split; [exact C1|]. split; [exact C2|]. split; [exact C3|]. split; [exact C4|]. split; [exact C5|].
      intros j Hj. rewrite C6 by exact Hj. apply mset_other, Hj.
Qed.
Lemma one_call w i t e o rest : (mw_lock w = KNone \/ mw_lock w = KLive None) -> mw_threads w i = Some t -> m_todo t = (e, o) :: rest -> m_pc t = QStart ->
  exists sched, mrun w sched = None \/ exists w' t', mrun w sched = Some w' /\ mw_threads w' i = Some t' /\ m_todo t' = rest /\
    m_pc t' = match o with RCleanup => QFree | _ => QStart end /\ mw_lock w' = KLive None /\ forall j, j <> i -> mw_threads w' j = mw_threads w j.
Proof.
  intros Hl Ht Hd Hp. pose proof (step_lock w i t e o rest Ht Hd Hp) as E.
  assert (K : exists l, mlock_take (mw_lock w) e i = Some (Some l) /\ (l = KNull \/ l = KLive (Some i))).
  { destruct Hl as [-> | ->]; cbn [mlock_take]; [destruct (e_lock e)|]; eauto. }
  destruct K as (l & Kt & Kl). rewrite Kt in E. set (w1 := MW _ _ _) in E. destruct (entry_ending e o (mw_r w)) as (_ & E2 & E3).
  destruct (run_inside _ w1 i (MT (entry o) (m_todo t) (m_done t)) e o rest (mset_same _ _ _) Hd E3 E2 (Nat.le_refl _)) as (m & w' & t' & out & C1 & C2 & C3 & C4 & C5 & C6).
  exists (i :: repeat i m ++ [i]). cbn [mrun]. rewrite E, mrun_app, C1. cbn [mrun]. rewrite (step_unlock w' i t' e o rest out C2 C3 C4). cbn [mw_lock w1] in C5. rewrite C5.
  destruct Kl as [-> | ->]; cbn [mlock_give]; [left; reflexivity|]. rewrite Nat.eqb_refl. right. eexists _, _. split; [reflexivity|]. cbn [mw_threads mw_lock]. rewrite mset_same.
  split; [reflexivity|]. split; [reflexivity|]. split; [reflexivity|]. split; [reflexivity|]. intros j Hj. rewrite mset_other by exact Hj. rewrite C6 by exact Hj. apply mset_other, Hj.
Qed.
Lemma cleanup_races pre : forall w i t e post j tj, (mw_lock w = KNone \/ mw_lock w = KLive None) -> mw_threads w i = Some t -> m_todo t = pre ++ (e, RCleanup) :: post -> m_pc t = QStart ->
  j <> i -> mw_threads w j = Some tj -> m_todo tj <> [] -> m_pc tj = QStart -> exists sched, mrun w sched = None.
Proof.
  induction pre as [|[e0 o0] pre IH]; intros w i t e post j tj Hl Ht Hd Hp Hj Htj Hne Hpj; cbn [app] in Hd;
    destruct (one_call w i t _ _ _ Hl Ht Hd Hp) as (sched & [Hs|(w' & t' & C1 & C2 & C3 & C4 & C5 & C6)]); try (exists sched; exact Hs).
  - (* freed *)
    exists (sched ++ [i; j]). rewrite mrun_app, C1. cbn [mrun]. rewrite (step_free w' i t' C2 C4), C5. cbn [mlock_free].
    destruct (m_todo tj) as [|[ej oj] restj] eqn:Hdj; [contradiction|].
    rewrite (step_lock _ j tj ej oj restj); [reflexivity| |exact Hdj|exact Hpj]. cbn [mw_threads]. rewrite mset_other by exact Hj. rewrite C6 by exact Hj. exact Htj.
  - destruct (match o0 with RCleanup => true | _ => false end) eqn:Eo.
    + destruct o0; try discriminate. exists (sched ++ [i; j]). rewrite mrun_app, C1. cbn [mrun]. rewrite (step_free w' i t' C2 C4), C5. cbn [mlock_free].
      destruct (m_todo tj) as [|[ej oj] restj] eqn:Hdj; [contradiction|].
      rewrite (step_lock _ j tj ej oj restj); [reflexivity| |exact Hdj|exact Hpj]. cbn [mw_threads]. rewrite mset_other by exact Hj. rewrite C6 by exact Hj. exact Htj.
    + destruct (IH w' i t' e post j tj) as (s2 & H2); [right; exact C5|exact C2|exact C3|rewrite C4; destruct o0; reflexivity || discriminate|exact Hj|rewrite C6 by exact Hj; exact Htj|exact Hne|exact Hpj|].
      exists (sched ++ s2). rewrite mrun_app, C1. exact H2.
Qed.

(** ** statements *)
Theorem linearizable : forall reqs s1 s2 w1 w2, mrun (mwith reqs) s1 = Some w1 -> mrun w1 s2 = Some w2 ->
  exists o1 o2, linear reqs w1 o1 /\ linear reqs w2 (o1 ++ o2).
Proof.
  intros reqs s1 s2 w1 w2 E1 E2. destruct (minv_run reqs s1 [] _ _ (minv_start reqs) E1) as (l1 & H1). destruct (minv_run reqs s2 _ _ _ H1 E2) as (l2 & H2).
  exists l1, l2. split; [exact (proj1 H1)|exact (proj1 H2)].
Qed.
Theorem stays_defined : forall reqs, (forall e o, calls reqs (e, o) -> e_lock e = true /\ o <> RCleanup) ->
  forall sched, exists w, mrun (mwith reqs) sched = Some w /\ exists rest w', mrun w rest = Some w' /\ finished w'.
Proof.
  intros reqs H sched. destruct (ninv_run reqs H sched [] _ (ninv_start reqs)) as (w & l & E & Hn). exists w. split; [exact E|]. exact (all_end reqs H _ _ _ Hn (Nat.le_refl _)).
Qed.
Theorem cleanup_beside : forall reqs i j qi qj e, i <> j -> nth_error reqs i = Some qi -> nth_error reqs j = Some qj -> In (e, RCleanup) qi -> qj <> [] ->
  exists sched, mrun (mwith reqs) sched = None.
Proof.
  intros reqs i j qi qj e Hij Hi Hj Hin Hne. apply in_split in Hin as (pre & post & ->).
  apply (cleanup_races pre (mwith reqs) i (MT QStart (pre ++ (e, RCleanup) :: post) []) e post j (MT QStart qj [])); cbn [mwith mw_lock mw_threads m_todo m_pc]; try reflexivity;
    [left; reflexivity|rewrite Hi; reflexivity|congruence|rewrite Hj; reflexivity|exact Hne].
Qed.
