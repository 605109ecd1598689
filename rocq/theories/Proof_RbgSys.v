(** Proofs about the generator together with the system generator. *)
From Coq Require Import Lia ZArith Znumtheory.
From Verif Require Import Base Lib Model_Params Model_Gost89 Spec_Gost89 Spec_Params Model_Rbg Spec_Rbg Spec_RbgApi Proof_Rbg Model_RbgSys Spec_RbgSys.
From Verif Require Import Model_Gf2m Model_Compress Model_Ec Model_Curves Model_Sign Spec_Gf2m Spec_Compress Spec_Curves Spec_Sign Proof_SignBind.

Lemma loop_app a : forall b r, get_bytes_loop (a + b) r =
  (fst (get_bytes_loop b (fst (get_bytes_loop a r))), snd (get_bytes_loop a r) ++ snd (get_bytes_loop b (fst (get_bytes_loop a r)))).
Proof.
  induction a as [|a IH]; intros b r; cbn [Nat.add get_bytes_loop fst snd app]; [now destruct (get_bytes_loop b r)|].
  destruct (get_byte r) as [r1 x]. rewrite IH. destruct (get_bytes_loop a r1) as [r2 l]. reflexivity.
Qed.
(** After the generator is initialised: initialised under a live lock, or cleaned up. *)
Definition inited {S} (p : proc S) : Prop := p_lock p = LFreed \/ p_lock p = LLive /\ r_init (p_r p) = true.
Definition total (h : list (moment * pop)) : nat := list_sum (map loop_bound (requests h)).

Lemma body_init r e o : r_init r = true -> o <> RCleanup ->
  body r e o = match o with RBytes n => let (r', l) := get_bytes_loop (loop_bound n) r in (r', ROUT true l) | _ => (r, ROUT (e_status e) []) end.
Proof.
  intros Hi Ho. destruct o as [|n|]; [| |congruence]; cbn [body]; unfold status_nolock, bytes_body; rewrite Hi; [now rewrite andb_false_r|].
  now destruct (get_bytes_loop (loop_bound n) r).
Qed.
Lemma freed_call {S} (sys : sysgen S) p m o p' out : p_lock p = LFreed -> pcall sys p m o = Some (p', out) ->
  p_lock p' = LFreed /\ o_data out = [] /\ requests [(m, o)] = [].
Proof.
  intros Hl. destruct o as [b|b|o]; cbn [pcall].
  - destruct (sg_add sys (p_sys p) b). intros [= <- <-]. auto.
  - destruct (sg_seed sys (p_sys p) b). intros [= <- <-]. auto.
  - unfold rcall. rewrite Hl. cbn [lock]. discriminate.
Qed.
Lemma live_call {S} (sys : sysgen S) p m o p' out : p_lock p = LLive -> r_init (p_r p) = true -> pcall sys p m o = Some (p', out) ->
  inited p' /\ o_data out = snd (get_bytes_loop (total [(m, o)]) (p_r p)) /\
  (p_lock p' = LLive -> p_r p' = fst (get_bytes_loop (total [(m, o)]) (p_r p))).
Proof.
  intros Hl Hi. destruct o as [b|b|o]; cbn [pcall].
  - destruct (sg_add sys (p_sys p) b). intros [= <- <-]. unfold inited. cbn. auto.
  - destruct (sg_seed sys (p_sys p) b). intros [= <- <-]. unfold inited. cbn. auto.
  - rewrite Hl, rcall_live. destruct o as [|n|].
    + rewrite (body_init _ _ RStatus Hi) by discriminate. intros [= <- <-]. unfold inited. cbn. auto.
    + rewrite (body_init _ _ (RBytes n) Hi) by discriminate. unfold total, requests. cbn [flat_map snd app map list_sum fold_right].
      rewrite Nat.add_0_r. pose proof (get_bytes_init (loop_bound n) (p_r p)) as K.
      destruct (get_bytes_loop (loop_bound n) (p_r p)) as [r' l]. cbn [fst snd] in *. intros [= <- <-].
      unfold inited. cbn [p_lock p_r o_data]. rewrite K. auto.
    + cbn [body fst snd]. intros [= <- <-]. unfold inited. cbn. split; [auto|]. split; [reflexivity|discriminate].
Qed.
Lemma requests_cons c h : requests (c :: h) = requests [c] ++ requests h.
Proof. unfold requests. cbn [flat_map]. now rewrite app_nil_r. Qed.
Lemma total_cons c h : total (c :: h) = (total [c] + total h)%nat.
Proof. unfold total. rewrite requests_cons, map_app, list_sum_app. reflexivity. Qed.
Lemma freed_run {S} (sys : sysgen S) h : forall p p' outs, p_lock p = LFreed -> prun sys p h = Some (p', outs) ->
  drawn outs = [] /\ requests h = [].
Proof.
  induction h as [|[m o] h IH]; intros p p' outs Hl; cbn [prun]; [intros [= <- <-]; auto|].
  destruct (pcall sys p m o) as [[p1 out]|] eqn:E; [|discriminate]. destruct (prun sys p1 h) as [[p2 outs']|] eqn:R; [|discriminate].
  intros [= <- <-]. apply freed_call in E as (A & B & C); [|exact Hl]. specialize (IH _ _ _ A R) as [D F].
  unfold drawn in *. cbn [map concat]. rewrite requests_cons, B, C, D, F. auto.
Qed.
Lemma live_run {S} (sys : sysgen S) h : forall p p' outs, inited p -> prun sys p h = Some (p', outs) ->
  drawn outs = snd (get_bytes_loop (total h) (p_r p)).
Proof.
  induction h as [|[m o] h IH]; intros p p' outs Hi; cbn [prun]; [intros [= <- <-]; reflexivity|].
  destruct (pcall sys p m o) as [[p1 out]|] eqn:E; [|discriminate]. destruct (prun sys p1 h) as [[p2 outs']|] eqn:R; [|discriminate].
  intros [= <- <-]. rewrite total_cons.
  destruct Hi as [Hl|[Hl Hi]].
  - assert (R' : prun sys p ((m, o) :: h) = Some (p2, out :: outs')) by (cbn [prun]; now rewrite E, R).
    destruct (freed_run sys _ _ _ _ Hl R') as [A B]. rewrite A, <- total_cons. unfold total. rewrite B. reflexivity.
  - destruct (live_call sys p m o p1 out Hl Hi E) as (A & B & C). rewrite loop_app. cbn [snd].
    unfold drawn. cbn [map concat]. rewrite B. f_equal. fold (drawn outs').
    destruct A as [A|[A A']].
    + destruct (freed_run sys _ _ _ _ A R) as [-> Z]. unfold total. rewrite Z. reflexivity.
    + rewrite (IH _ _ _ (or_intror (conj A A')) R). now rewrite (C A).
Qed.
(** A call that reports success leaves the generator initialised. *)
Lemma call_ready {S} (sys : sysgen S) p m o p' out : pcall sys p m (PRand o) = Some (p', out) -> o <> RCleanup -> o_ret out = true -> inited p'.
Proof.
  cbn [pcall]. intros H Ho Hr. destruct (rcall _ _ _ o) as [[[l r] out']|] eqn:E; [|discriminate]. inversion H; subst; clear H.
  set (e := answers sys (p_sys p) m) in *. clearbody e. unfold rcall in E.
  destruct (lock (p_lock p) e) as [l1|]; [|discriminate]. destruct (body (p_r p) e o) as [r' out'] eqn:B.
  destruct l1; try discriminate. cbn [unlock] in E. inversion E; subst; clear E.
  right. cbn [p_lock p_r]. split; [now destruct o|].
  assert (T : forall r1 b, status_nolock (p_r p) e = (r1, b) -> b = true -> r_init r1 = true).
  { intros r1 b. unfold status_nolock. destruct (e_status e), (r_init (p_r p)) eqn:Ei; cbn [andb negb].
    - intros [= <- <-]. auto.
    - unfold rbg_init. destruct (e_seed e); intros [= <- <-]; [reflexivity|discriminate].
    - intros [= <- <-]. auto.
    - intros [= <- <-]. discriminate. }
  destruct o as [|n|]; [| |congruence]; cbn [body] in B.
  - destruct (status_nolock (p_r p) e) as [r1 b] eqn:Es. inversion B; subst. apply (T r b eq_refl Hr).
  - unfold bytes_body in B. destruct (r_init (p_r p)) eqn:Ei.
    + pose proof (get_bytes_init (loop_bound n) (p_r p)) as K. destruct (get_bytes_loop (loop_bound n) (p_r p)). inversion B; subst. cbn [fst] in K. congruence.
    + destruct (status_nolock (p_r p) e) as [r1 b] eqn:Es. pose proof (get_bytes_init (loop_bound n) r1) as K.
      destruct (get_bytes_loop (loop_bound n) r1). inversion B; subst. cbn [fst] in K. rewrite K. apply (T r1 b eq_refl Hr).
Qed.
Lemma inited_call {S} (sys : sysgen S) p m o p' out : inited p -> pcall sys p m o = Some (p', out) -> inited p'.
Proof.
  intros [H|[H H']] E; [left; eapply freed_call; eassumption|]. eapply live_call; eassumption.
Qed.
Lemma inited_run {S} (sys : sysgen S) h : forall p p' outs, inited p -> prun sys p h = Some (p', outs) -> inited p'.
Proof.
  induction h as [|[m o] h IH]; intros p p' outs Hi; cbn [prun]; [intros [= <- <-]; exact Hi|].
  destruct (pcall sys p m o) as [[p1 out]|] eqn:E; [|discriminate]. destruct (prun sys p1 h) as [[p2 outs']|] eqn:R; [|discriminate].
  intros [= <- <-]. eapply IH; [|exact R]. eapply inited_call; eassumption.
Qed.
Lemma run_ready {S} (sys : sysgen S) h : forall p p' outs, prun sys p h = Some (p', outs) -> ready h outs -> inited p'.
Proof.
  induction h as [|[m o] h IH]; intros p p' outs; cbn [prun].
  - intros [= <- <-] (? & ? & ? & [] & _).
  - destruct (pcall sys p m o) as [[p1 out]|] eqn:E; [|discriminate]. destruct (prun sys p1 h) as [[p2 outs']|] eqn:R; [|discriminate].
    intros [= <- <-] (m' & o' & out' & Hin & Ho & Hr). cbn [combine] in Hin. destruct Hin as [[= -> -> ->]|Hin].
    + eapply inited_run; [|exact R]. eapply call_ready; eassumption.
    + eapply IH; [exact R|]. exists m', o', out'. auto.
Qed.

(** ** C127 *)
Lemma added_data {S} (sys : sysgen S) s0 h0 p outs0 h1 h2 p1 outs1 p2 outs2 :
  prun sys (start s0) h0 = Some (p, outs0) -> ready h0 outs0 ->
  prun sys p h1 = Some (p1, outs1) -> prun sys p h2 = Some (p2, outs2) ->
  requests h1 = requests h2 -> drawn outs1 = drawn outs2.
Proof.
  intros R0 Hr R1 R2 Q. pose proof (run_ready sys _ _ _ _ R0 Hr) as Hi.
  rewrite (live_run sys h1 p p1 outs1 Hi R1), (live_run sys h2 p p2 outs2 Hi R2). unfold total. now rewrite Q.
Qed.
Lemma never_again {S} (sys : sysgen S) h : forall p p' outs, inited p -> prun sys p h = Some (p', outs) -> p_sys p' = touched sys (p_sys p) h.
Proof.
  induction h as [|[m o] h IH]; intros p p' outs Hi; cbn [prun]; [intros [= <- <-]; reflexivity|].
  destruct (pcall sys p m o) as [[p1 out]|] eqn:E; [|discriminate]. destruct (prun sys p1 h) as [[p2 outs']|] eqn:R; [|discriminate].
  intros [= <- <-]. rewrite (IH _ _ _ (inited_call _ _ _ _ _ _ Hi E) R). unfold touched. cbn [fold_left snd]. f_equal.
  destruct o as [b|b|o]; cbn [pcall] in E.
  - destruct (sg_add sys (p_sys p) b). injection E as <- _. reflexivity.
  - destruct (sg_seed sys (p_sys p) b). injection E as <- _. reflexivity.
  - destruct (rcall (p_lock p) (p_r p) (answers sys (p_sys p) m) o) as [[[l r] out']|] eqn:C; [|discriminate]. injection E as <- _. cbn [p_sys].
    destruct Hi as [Hl|[_ Hi]]; [unfold rcall in C; rewrite Hl in C; discriminate C|]. destruct o; cbn [sys_after]; rewrite ?Hi; try reflexivity.
    unfold sys_status. destruct (sg_status sys (p_sys p)) as [s1 v]. now rewrite andb_false_r.
Qed.
Lemma never_reseeded {S} (sys : sysgen S) s0 h0 p outs0 h1 p1 outs1 : prun sys (start s0) h0 = Some (p, outs0) -> ready h0 outs0 ->
  prun sys p h1 = Some (p1, outs1) -> p_sys p1 = touched sys (p_sys p) h1.
Proof. intros R0 Hr R1. eapply never_again; [|exact R1]. exact (run_ready sys _ _ _ _ R0 Hr). Qed.
Lemma adds_run {S} (sys : sysgen S) h : forall p, only_adds h -> exists outs,
  prun sys p h = Some (PROC (p_lock p) (p_r p) (added sys (p_sys p) h), outs) /\ drawn outs = [].
Proof.
  induction h as [|[m o] h IH]; intros p H; [exists []; destruct p; auto|]. inversion H as [|? ? H1 H2]; subst. cbn [snd] in H1.
  destruct o as [b|b|o]; [| |contradiction]; cbn [prun pcall added fold_left snd].
  - destruct (sg_add sys (p_sys p) b) as [s v]. destruct (IH (PROC (p_lock p) (p_r p) s) H2) as (outs & E & D). rewrite E.
    eexists. split; [reflexivity|]. exact D.
  - destruct (sg_seed sys (p_sys p) b) as [s v]. destruct (IH (PROC (p_lock p) (p_r p) s) H2) as (outs & E & D). rewrite E.
    eexists. split; [reflexivity|]. exact D.
Qed.
Lemma prun_app {S} (sys : sysgen S) h1 : forall p h2, prun sys p (h1 ++ h2) =
  match prun sys p h1 with None => None | Some (p1, o1) => match prun sys p1 h2 with None => None | Some (p2, o2) => Some (p2, o1 ++ o2) end end.
Proof.
  induction h1 as [|[m o] h1 IH]; intros p h2; cbn [app prun]; [now destruct (prun sys p h2) as [[? ?]|]|].
  destruct (pcall sys p m o) as [[p1 out]|]; [|reflexivity]. rewrite IH. destruct (prun sys p1 h1) as [[p2 o1]|]; [|reflexivity].
  now destruct (prun sys p2 h2) as [[? ?]|].
Qed.
Lemma first_request {S} (sys : sysgen S) s0 h0 s1 s2 seed time n :
  only_adds h0 -> sg_status sys (added sys s0 h0) = (s1, true) -> sg_bytes sys s1 40 = (s2, Some seed) ->
  bytesn 40 seed -> bytesn 8 time -> (0 <= n < 2 ^ 31)%Z ->
  exists p outs, prun sys (start s0) (h0 ++ [((true, time), PRand (RBytes n))]) = Some (p, outs) /\
    drawn outs = rbg_stream seed time (Z.to_nat n) /\ p_sys p = s2.
Proof.
  intros Ha Hs Hb Bs Bt Hn. destruct (adds_run sys h0 (start s0) Ha) as (outs & E & D). rewrite prun_app, E. cbn [start p_lock p_r p_sys] in *.
  cbn [prun pcall p_lock p_r p_sys]. set (e := answers sys (added sys s0 h0) (true, time)).
  assert (He : e = ENV true true (Some seed) time) by (unfold e, answers; rewrite Hs, Hb; reflexivity).
  assert (Oe : env_ok e) by (rewrite He; split; [intros sd [= <-]; exact Bs|exact Bt]).
  destruct (seed_call e (RBytes n) seed) as (r' & Eb & Hst); [now rewrite He|now rewrite He|exact Oe|discriminate|].
  destruct (sst_body seed (e_time e) 0 r' e (RBytes n) Bs Hst) as (r2 & out & E2 & Sv & _ & Dt); [discriminate|exact Hn|].
  rewrite rcall_none. replace (e_lock e) with true by now rewrite He. rewrite rcall_live, Eb, E2. cbn [fst snd].
  do 2 eexists. split; [reflexivity|]. unfold drawn in *. rewrite map_app, concat_app, D. cbn [map concat app]. rewrite app_nil_r.
  destruct Sv as [_ Sv]. rewrite Sv in Dt. split.
  - rewrite Dt. rewrite He. reflexivity.
  - cbn [p_sys]. unfold sys_after. cbn [r_init rbg0]. unfold sys_status. now rewrite Hs, Hb.
Qed.

(** ** C128 *)
Lemma loop_prefix a b r : (a <= b)%nat -> firstn a (snd (get_bytes_loop b r)) = snd (get_bytes_loop a r).
Proof.
  intros H. replace b with (a + (b - a))%nat by lia. rewrite loop_app. cbn [snd].
  rewrite firstn_app, get_bytes_len, Nat.sub_diag, firstn_O, app_nil_r. apply firstn_all2. now rewrite get_bytes_len.
Qed.
Lemma forked_inited {S} (p : proc S) s : inited p -> inited (forked p s).
Proof. exact (fun H => H). Qed.
Lemma fork_same {S} (sys : sysgen S) s0 h0 p outs0 s' h1 h2 p1 outs1 p2 outs2 :
  prun sys (start s0) h0 = Some (p, outs0) -> ready h0 outs0 ->
  prun sys p h1 = Some (p1, outs1) -> prun sys (forked p s') h2 = Some (p2, outs2) ->
  let n := Nat.min (length (drawn outs1)) (length (drawn outs2)) in
  firstn n (drawn outs1) = firstn n (drawn outs2).
Proof.
  intros R0 Hr R1 R2. pose proof (run_ready sys _ _ _ _ R0 Hr) as Hi.
  rewrite (live_run sys h1 p p1 outs1 Hi R1), (live_run sys h2 (forked p s') p2 outs2 (forked_inited p s' Hi) R2).
  cbn [forked p_r]. rewrite !get_bytes_len. cbv zeta. rewrite !loop_prefix by lia. reflexivity.
Qed.
Lemma gets_same {S} (sys : sysgen S) p s' n l l' : inited p -> gets sys p n l -> gets sys (forked p s') n l' -> l = l'.
Proof.
  intros Hi (m & p1 & E) (m' & p2 & E').
  assert (A : forall q m q' out, inited q -> pcall sys q m (PRand (RBytes (Z.of_nat n))) = Some (q', ROUT true out) ->
    out = snd (get_bytes_loop (loop_bound (Z.of_nat n)) (p_r q))).
  { intros q k q' out [Hl|[Hl Hq]] Q.
    - apply freed_call in Q as (_ & _ & Q); [discriminate Q|exact Hl].
    - apply live_call in Q as (_ & Q & _); [|exact Hl|exact Hq]. cbn [o_data] in Q. rewrite Q. unfold total, requests.
      cbn [flat_map snd app map list_sum fold_right]. now rewrite Nat.add_0_r. }
  rewrite (A _ _ _ _ Hi E), (A _ _ _ _ (forked_inited p s' Hi) E'). reflexivity.
Qed.
Lemma sign_first key t src sig : do_sign 1 key t src = Done sig -> exists e, src 0%nat = Some e /\ do_sign 1 key t (fun _ => Some e) = Done sig.
Proof.
  unfold do_sign. destruct (ek_priv key) as [d|]; [|discriminate]. destruct (ek_group key) as [[g|]|]; try discriminate.
  destruct (g_order g =? 0); [discriminate|]. destruct (hash_to_field t _) as [h|]; [|discriminate].
  cbn [sign_loop]. destruct (src 0%nat) as [e|]; [|discriminate]. intros H. exists e. split; [reflexivity|exact H].
Qed.
Lemma fork_key {S} (sys : sysgen S) s0 h0 p outs0 s' need pick src1 src2 g d Q t1 t2 sig1 sig2 d' :
  prun sys (start s0) h0 = Some (p, outs0) -> ready h0 outs0 ->
  (forall k, exists l, gets sys p (need k) l /\ src1 k = pick k l) ->
  (forall k, exists l, gets sys (forked p s') (need k) l /\ src2 k = pick k l) ->
  well_formed g -> prime (Z.of_N (g_order g)) -> d < g_order g -> d' < g_order g -> ranged (g_order g) src1 ->
  let key := ECKEY (Some (Binary g)) (Some d) Q in let n := g_order g in
  do_sign 1 key t1 src1 = Done sig1 -> do_sign 1 key t2 src2 = Done sig2 ->
  let size := N.to_nat (num_bytes n) in
  let s1 := be_val (firstn size sig1) in let r1 := be_val (skipn size sig1) in
  let s2 := be_val (firstn size sig2) in let r2 := be_val (skipn size sig2) in
  r1 <> r2 -> ((s1 + d' * r2) mod n = (s2 + d' * r1) mod n <-> d' = d).
Proof.
  cbv zeta. intros R0 Hr F1 F2 W Pr Hd Hd' Rg S1 S2. pose proof (run_ready sys _ _ _ _ R0 Hr) as Hi.
  apply sign_first in S1 as (e1 & E1 & S1). apply sign_first in S2 as (e2 & E2 & S2).
  destruct (F1 0%nat) as (l1 & G1 & K1). destruct (F2 0%nat) as (l2 & G2 & K2).
  rewrite (gets_same sys p s' _ _ _ Hi G1 G2) in K1. assert (e2 = e1) as -> by congruence.
  exact (sign_one_nonce 1 1 g d Q t1 t2 e1 sig1 sig2 d' W Pr Hd Hd' (Rg _ _ E1) S1 S2).
Qed.

(** ** For the examples *)
Lemma ready_request {S} (sys : sysgen S) s m n s1 s2 seed : fst m = true -> sg_status sys s = (s1, true) -> sg_bytes sys s1 40 = (s2, Some seed) ->
  exists p l, pcall sys (start s) m (PRand (RBytes n)) = Some (p, ROUT true l) /\ p_lock p = LLive.
Proof.
  intros Hm Hs Hb. cbn [pcall start p_lock p_r p_sys]. rewrite rcall_none.
  assert (He : answers sys s m = ENV true true (Some seed) (snd m)) by (unfold answers; now rewrite Hs, Hb, Hm).
  rewrite He. cbn [e_lock]. rewrite rcall_live. cbn [body]. unfold bytes_body, status_nolock, rbg_init. cbn [r_init rbg0 e_status e_seed andb negb].
  destruct (get_bytes_loop (loop_bound n) _) as [r l]. cbn [fst snd]. do 2 eexists. split; reflexivity.
Qed.
Lemma run_live {S} (sys : sysgen S) h : forall p, p_lock p = LLive -> Forall (fun c => snd c <> PRand RCleanup) h ->
  exists p' outs, prun sys p h = Some (p', outs).
Proof.
  induction h as [|[m o] h IH]; intros p Hl H; [do 2 eexists; reflexivity|].
  pose proof (Forall_inv H) as H1. pose proof (Forall_inv_tail H) as H2. cbn [snd] in H1. cbn [prun].
  assert (exists p1 out, pcall sys p m o = Some (p1, out) /\ p_lock p1 = LLive) as (p1 & out & E & L1).
  { destruct o as [b|b|ro]; cbn [pcall].
    - destruct (sg_add sys (p_sys p) b). eauto.
    - destruct (sg_seed sys (p_sys p) b). eauto.
    - rewrite Hl, rcall_live. destruct ro; [eauto|eauto|congruence]. }
  rewrite E. destruct (IH p1 L1 H2) as (p2 & outs & R). rewrite R. eauto.
Qed.
Lemma gets_some {S} (sys : sysgen S) p (m : moment) n : p_lock p = LLive -> inited p -> exists l, gets sys p n l /\ length l = loop_bound (Z.of_nat n).
Proof.
  intros Hl [Hi|[_ Hi]]; [congruence|]. exists (snd (get_bytes_loop (loop_bound (Z.of_nat n)) (p_r p))). split; [|apply get_bytes_len].
  exists m. cbn [pcall]. rewrite Hl, rcall_live, body_init by (assumption || discriminate).
  destruct (get_bytes_loop _ _) as [r l]. cbn [fst snd]. eauto.
Qed.
