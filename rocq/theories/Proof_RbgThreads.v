(** Proofs for the concurrent part of Model_Rbg. *)
From Coq Require Import Lia.
From Verif Require Import Base Lib Model_Gost89 Spec_Gost89 Proof_Gost89 Model_Params Spec_Params
  Model_Rbg Spec_Rbg Spec_RbgApi Proof_Rbg.
#[local] Opaque gostcrypt encrypt.

Section T.
Variable reqs : list (list (env * Z)).
Hypothesis Hreqs : forall q, In q reqs -> Forall good_request q.

Definition total (order : list (nat * list N)) : nat := length (concat (map snd order)).
Definition from (e : env) (seed : list N) : Prop := exists q n, In q reqs /\ In (e, n) q /\ e_seed e = Some seed.

(** the unlocked shared state after the requests in [order] *)
Definition seeded_by (seed time : list N) : Prop := exists e, from e seed /\ e_time e = time.
Definition quiet (order : list (nat * list N)) (r : rbg) : Prop :=
  (order = [] /\ r = rbg0) \/
  exists seed time, seeded_by seed time /\ sst seed time (8 * total order) r /\
    concat (map snd order) = rbg_stream seed time (total order).

Notation B seed time := (gen_byte (dE seed) (dE seed time) (skipn 32 seed)).
Notation X seed time := (gen_x (dE seed) (dE seed time)).
Notation A seed time n := (gen_after (dE seed) (dE seed time) n (skipn 32 seed)).
Notation bits seed time := (gen_bits (dE seed) (dE seed time)).
Definition scf seed time r := conf (packed_sbox default_sbox) (dkey seed) (dE seed time) r.

(** what holds when a request for [n] bytes is at [p] inside the critical section *)
Definition busy (order : list (nat * list N)) (n : nat) (p : pc) (r : rbg) : Prop :=
  match p with
  | PStart => False
  | PCheck => quiet order r
  | PSeed => order = [] /\ r = rbg0
  | _ => exists seed time, seeded_by seed time /\ concat (map snd order) = rbg_stream seed time (total order) /\
      let t := total order in
      match p with
      | PLoop rv lft out => rv = true /\ (lft + length out = n)%nat /\
          out = map (B seed time) (seq t (length out)) /\ sst seed time (8 * (t + length out)) r
      | PX rv lft out j b => rv = true /\ (S lft + length out = n)%nat /\ (j < 8)%nat /\
          out = map (B seed time) (seq t (length out)) /\
          b = bits_val (bits seed time j (A seed time (8 * (t + length out)))) /\
          sst seed time (8 * (t + length out) + j) r
      | PS rv lft out j b x => rv = true /\ (S lft + length out = n)%nat /\ (j < 8)%nat /\
          out = map (B seed time) (seq t (length out)) /\
          b = bits_val (bits seed time j (A seed time (8 * (t + length out)))) /\
          sst seed time (8 * (t + length out) + j) r /\
          x = X seed time (A seed time (8 * (t + length out) + j))
      | PE rv lft out j b x => rv = true /\ (S lft + length out = n)%nat /\ (j < 8)%nat /\
          out = map (B seed time) (seq t (length out)) /\
          b = bits_val (bits seed time j (A seed time (8 * (t + length out)))) /\
          scf seed time r /\ r_s r = xorl x (dE seed time) /\
          x = X seed time (A seed time (8 * (t + length out) + j))
      | PUnlock rv out => rv = true /\ length out = n /\
          out = map (B seed time) (seq t (length out)) /\ sst seed time (8 * (t + length out)) r
      | _ => False
      end
  end.

Definition tinv (order : list (nat * list N)) (w : world) : Prop :=
  completed reqs w order /\
  (forall i, (length reqs <= i)%nat -> w_threads w i = None) /\
  match w_owner w with
  | None => quiet order (w_r w) /\ forall i t, w_threads w i = Some t -> t_pc t = PStart
  | Some i => (forall j t, j <> i -> w_threads w j = Some t -> t_pc t = PStart) /\
      exists t e n rest, w_threads w i = Some t /\ t_todo t = (e, n) :: rest /\ busy order (Z.to_nat n) (t_pc t) (w_r w)
  end.

Lemma seeded_bytes seed time : seeded_by seed time -> bytesn 40 seed /\ bytesn 8 (dE seed time) /\ bytesn 8 (skipn 32 seed).
Proof.
  intros (e & (q & n & H1 & H2 & H3) & H4). pose proof (Hreqs q H1) as H. rewrite Forall_forall in H. destruct (H _ H2) as ((Hs & _) & _).
  specialize (Hs _ H3). split; [exact Hs|]. split; [apply encrypt_bytesn|]. now apply (bytesn_skipn 32 8).
Qed.
Lemma tset_same ts i t : tset ts i t i = Some t.
Proof. unfold tset. now rewrite Nat.eqb_refl. Qed.
Lemma tset_other ts i j t : j <> i -> tset ts i t j = ts j.
Proof. intros H. unfold tset. apply Nat.eqb_neq in H. now rewrite H. Qed.

Lemma completed_pc order w i t p r o : completed reqs w order -> w_threads w i = Some t ->
  completed reqs (W r o (tset (w_threads w) i (TH p (t_todo t) (t_done t)))) order.
Proof.
  intros [H1 H2] Ht. split; [exact H1|]. intros j q Hq. destruct (H2 j q Hq) as (t' & n & A1 & A2).
  cbn [w_threads]. destruct (Nat.eq_dec j i) as [->|Hne].
  - rewrite tset_same. rewrite Ht in A1. inversion A1; subst t'. exists (TH p (t_todo t) (t_done t)), n. split; [reflexivity|exact A2].
  - rewrite tset_other by exact Hne. exists t', n. auto.
Qed.
Lemma in_reqs i q e n order w t rest : nth_error reqs i = Some q -> completed reqs w order -> w_threads w i = Some t ->
  t_todo t = (e, n) :: rest -> In (e, n) q /\ good_request (e, n).
Proof.
  intros Hq [_ H] Ht Htodo. destruct (H i q Hq) as (t' & m & A1 & A2 & A3 & A4 & A5). rewrite Ht in A1. inversion A1; subst t'.
  assert (In (e, n) q). { rewrite <- (firstn_skipn m q). apply in_or_app. right. rewrite <- A4, Htodo. now left. }
  split; [assumption|]. pose proof (Hreqs q (nth_error_In _ _ Hq)) as Hg. rewrite Forall_forall in Hg. now apply Hg.
Qed.

Lemma total_snoc order i out : total (order ++ [(i, out)]) = (total order + length out)%nat.
Proof. unfold total. rewrite map_app, concat_app, app_length. cbn. now rewrite app_nil_r. Qed.

(** one internal step of the owner *)
Lemma busy_step order e n q0 p r : good_request (e, n) -> In q0 reqs -> In (e, n) q0 ->
  busy order (Z.to_nat n) p r ->
  match p with
  | PStart | PUnlock _ _ => True
  | PCheck => busy order (Z.to_nat n) (if r_init r then PLoop true (loop_bound n) [] else PSeed) r
  | PSeed => busy order (Z.to_nat n) (PLoop (snd (status_nolock r e)) (loop_bound n) []) (fst (status_nolock r e))
  | PLoop rv O out => busy order (Z.to_nat n) (PUnlock rv out) r
  | PLoop rv (S k) out => busy order (Z.to_nat n) (PX rv k out 0%nat 0) r
  | PX rv k out j b => busy order (Z.to_nat n) (PS rv k out j b (bit_x r)) r
  | PS rv k out j b x => busy order (Z.to_nat n) (PE rv k out j b x) (bit_s r x)
  | PE rv k out j b x =>
      let b' := w8 (N.lor b (N.shiftl (low_bit x) (N.of_nat j))) in
      busy order (Z.to_nat n) (if Nat.eqb j 7 then PLoop rv k (out ++ [b']) else PX rv k out (S j) b') (bit_e r)
  end.
Proof.
  intros (He & Hse & Hn) Hq0 Hin Hb. pose proof (loop_bound_ok n Hn) as Hlb. cbn [fst snd] in *.
  destruct p as [| | |rv [|k] out|rv k out j b|rv k out j b x|rv k out j b x|rv out]; auto; cbn [busy] in Hb; rewrite ?Hlb.
  - (* check *) destruct Hb as [[H1 H2]|(seed & time & H1 & H2 & H3)].
    + subst r. cbn. auto.
    + assert (Hi : r_init r = true) by apply H2. rewrite Hi. cbn [busy]. exists seed, time. split; [auto|]. split; [auto|]. cbn [length seq map].
      rewrite !Nat.add_0_r. auto.
  - (* seed *) destruct Hb as [H1 ->]. subst order. apply andb_prop in Hse. destruct Hse as [Hs1 Hs2].
    destruct (e_seed e) as [seed|] eqn:Es; [|discriminate]. destruct (rbg_init_ok rbg0 e seed Es He) as (r' & E & Hst).
    unfold status_nolock. rewrite Hs1. cbn [andb negb r_init rbg0]. fold rbg0. rewrite E. cbn [fst snd busy].
    exists seed, (e_time e). split; [exists e; split; [exists q0, n; auto|reflexivity]|]. split; [reflexivity|]. cbn [length seq map total concat]. rewrite Nat.add_0_r.
    repeat split; auto; apply Hst.
  - (* loop, next byte *) destruct Hb as (seed & time & H1 & H2 & H3 & H4 & H5 & H6). exists seed, time. cbn [busy].
    split; [auto|]. split; [auto|]. split; [auto|]. split; [lia|]. split; [lia|]. split; [auto|]. split; [reflexivity|]. now rewrite Nat.add_0_r.
  - (* x *) destruct Hb as (seed & time & H1 & H2 & H3 & H4 & H5 & H6 & H7 & H8). exists seed, time. cbn [busy].
    destruct (seeded_bytes _ _ H1) as (_ & HI & Hs).
    do 8 (split; [assumption|]). exact (bit_x_ok _ _ _ _ HI Hs _ _ H8).
  - (* s *) destruct Hb as (seed & time & H1 & H2 & H3 & H4 & H5 & H6 & H7 & H8 & H9). exists seed, time. cbn [busy].
    destruct H8 as [Hc _].
    do 8 (split; [first [assumption|exact (bit_s_conf _ _ _ r x Hc)]|]). split; [exact (bit_s_s _ _ _ r x Hc)|exact H9].
  - (* e *) destruct Hb as (seed & time & H1 & H2 & H3 & H4 & H5 & H6 & H7 & H8 & H9 & H10).
    destruct (seeded_bytes _ _ H1) as (_ & HI & Hs). rewrite H10 in H9.
    pose proof (bit_e_ok _ _ _ _ HI _ _ H8 H9) as Hst.
    assert (Hb' : w8 (N.lor b (N.shiftl (low_bit x) (N.of_nat j))) =
       bits_val (bits seed time (S j) (A seed time (8 * (total order + length out))))).
    { rewrite H7, H10. rewrite low_bit_mod.
      pose proof (gen_after_add (packed_sbox default_sbox) (dkey seed) (dE seed time) (8 * (total order + length out)) j (skipn 32 seed)) as Hadd.
      fold (dE seed) in Hadd. rewrite Hadd. exact (set_bit_ok _ _ _ j _ H5). }
    cbv zeta. rewrite Hb'. clear Hb'. destruct (Nat.eqb_spec j 7) as [->|Hj].
    + exists seed, time. cbn [busy]. split; [exact H1|]. split; [exact H2|]. split; [exact H3|]. rewrite app_length. cbn [length].
      split; [lia|]. split.
      * rewrite seq_app, map_app. cbn [seq map]. rewrite <- H6. reflexivity.
      * replace (8 * (total order + (length out + 1)))%nat with (S (8 * (total order + length out) + 7)) by lia. exact Hst.
    + exists seed, time. cbn [busy]. split; [exact H1|]. split; [exact H2|]. split; [exact H3|]. split; [exact H4|]. split; [lia|].
      split; [exact H6|]. split; [reflexivity|]. replace (8 * (total order + length out) + S j)%nat with (S (8 * (total order + length out) + j)) by lia. exact Hst.
Qed.

Lemma tstep_inv order w i : tinv order w -> exists order', tinv order' (tstep w i) /\ exists l, order' = order ++ l.
Proof.
  intros Hinv. pose proof Hinv as (Hcomp & Hnone & Hown). unfold tstep.
  assert (Same : exists order', tinv order' w /\ exists l, order' = order ++ l) by (exists order; split; [exact Hinv|]; exists []; now rewrite app_nil_r).
  destruct (w_threads w i) as [t|] eqn:Ht; [|exact Same].
  destruct (t_todo t) as [|[e n] rest] eqn:Htodo; [exact Same|].
  assert (Hi : (i < length reqs)%nat). { destruct (Nat.lt_ge_cases i (length reqs)); auto. rewrite Hnone in Ht by assumption. discriminate. }
  destruct (nth_error reqs i) as [q|] eqn:Hq; [|apply nth_error_None in Hq; lia].
  destruct (in_reqs i q e n order w t rest Hq Hcomp Ht Htodo) as [Hin Hgood].
  assert (Hnone' : forall t' j, (length reqs <= j)%nat -> tset (w_threads w) i t' j = None).
  { intros t' j Hj. rewrite tset_other by lia. auto. }
  destruct (w_owner w) as [o|] eqn:Ho.
  - destruct Hown as [Hoth (t0 & e0 & n0 & rest0 & Ht0 & Htodo0 & Hb)].
    destruct (Nat.eq_dec i o) as [->|Hne].
    + rewrite Ht in Ht0. inversion Ht0; subst t0. rewrite Htodo in Htodo0. inversion Htodo0; subst e0 n0 rest0. clear Ht0 Htodo0.
      pose proof (busy_step order e n q (t_pc t) (w_r w) Hgood (nth_error_In _ _ Hq) Hin Hb) as Hs.
      assert (Go : forall r' p', busy order (Z.to_nat n) p' r' ->
        exists order', tinv order' (W r' (Some o) (tset (w_threads w) o (TH p' ((e, n) :: rest) (t_done t)))) /\ exists l, order' = order ++ l).
      { intros r' p' Hb'. exists order. split; [|exists []; now rewrite app_nil_r]. split; [|split].
        - pose proof (completed_pc order w o t p' r' (Some o) Hcomp Ht) as C. rewrite Htodo in C. exact C.
        - cbn [w_threads]. intros j Hj. apply Hnone'; auto.
        - cbn [w_owner]. split.
          + cbn [w_threads]. intros j tj Hj. rewrite tset_other by exact Hj. now apply Hoth.
          + cbn [w_threads w_r]. rewrite tset_same. exists (TH p' ((e, n) :: rest) (t_done t)), e, n, rest. cbn [t_todo t_pc]. auto. }
      destruct (t_pc t) as [| | |rv [|k] out|rv k out j b|rv k out j b x|rv k out j b x|rv out] eqn:Hpc; try (apply Go; exact Hs).
      * destruct Hb.
      * destruct (status_nolock (w_r w) e) as [r' rv]. apply Go. exact Hs.
      * (* unlock *)
        cbn [busy] in Hb. destruct Hb as (seed & time & H1 & H2 & H3 & H4 & H5 & H6). subst rv.
        exists (order ++ [(o, out)]). split; [|eauto]. destruct Hcomp as [C1 C2]. split; [split|split].
        -- intros j o' Hj. apply in_app_or in Hj. destruct Hj as [Hj|[Hj|[]]]; [eauto|]. inversion Hj; subst; exact Hi.
        -- intros j qj Hqj. destruct (C2 j qj Hqj) as (tj & m & A1 & A2 & A3 & A4 & A5). cbn [w_threads].
           rewrite filter_app, map_app. destruct (Nat.eq_dec j o) as [->|Hne].
           ++ rewrite tset_same. rewrite Ht in A1. inversion A1; subst tj. eexists. exists (S m). split; [reflexivity|].
              cbn [t_done t_todo filter fst]. rewrite Nat.eqb_refl. cbn [map snd]. rewrite app_length, A3. cbn [length].
              split; [now rewrite A2|]. split; [lia|].
              rewrite Hq in Hqj. inversion Hqj; subst qj. rewrite Htodo in A4.
              replace (S m) with (m + 1)%nat by lia. split.
              ** rewrite skipn_add, <- A4. reflexivity.
              ** rewrite firstn_add, <- A4. rewrite !map_app. f_equal; [exact A5|]. cbn [firstn map snd]. f_equal. rewrite H4. destruct Hgood as (_ & _ & Hn). cbn in Hn. lia.
           ++ rewrite tset_other by exact Hne. exists tj, m. cbn [filter fst]. destruct (Nat.eqb_spec o j); [congruence|]. cbn [map]. rewrite app_nil_r. auto.
        -- cbn [w_threads]. intros j Hj. apply Hnone'; auto.
        -- cbn [w_owner w_r w_threads]. split.
           ++ right. exists seed, time. split; [exact H1|]. rewrite total_snoc. split; [exact H6|].
              rewrite map_app, concat_app. cbn [map concat snd]. rewrite app_nil_r. unfold rbg_stream. cbv zeta. rewrite gen_stream_split. f_equal; [exact H2|exact H5].
           ++ intros j tj. destruct (Nat.eq_dec j o) as [->|Hne].
              ** rewrite tset_same. intros X; inversion X; reflexivity.
              ** rewrite tset_other by exact Hne. now apply Hoth.
    + rewrite (Hoth i t Hne Ht). exact Same.
  - destruct Hown as [Hquiet Hall]. rewrite (Hall i t Ht).
    exists order. split; [|exists []; now rewrite app_nil_r]. split; [|split].
    + rewrite <- Htodo. now apply completed_pc.
    + cbn [w_threads]. intros j Hj. apply Hnone'; auto.
    + cbn [w_owner]. split.
      * cbn [w_threads]. intros j tj Hj. rewrite tset_other by exact Hj. now apply Hall.
      * cbn [w_threads w_r]. rewrite tset_same. do 4 eexists. split; [reflexivity|]. split; [reflexivity|]. exact Hquiet.
Qed.

Lemma tinv_start : tinv [] (twith reqs).
Proof.
  split; [split|split].
  - intros i o [].
  - intros i q Hq. cbn [twith w_threads]. rewrite Hq. eexists. exists 0%nat. split; [reflexivity|]. repeat split; reflexivity.
  - intros i Hi. cbn. apply nth_error_None in Hi. now rewrite Hi.
  - cbn. split; [left; auto|]. intros i t. destruct (nth_error reqs i); [|discriminate]. intros X; inversion X; reflexivity.
Qed.
Lemma trun_inv sched : exists order, tinv order (trun (twith reqs) sched).
Proof.
  induction sched as [|i sched [order IH]] using rev_ind; [exists []; apply tinv_start|].
  unfold trun. rewrite fold_left_app. cbn [fold_left]. destruct (tstep_inv order _ i IH) as (order' & H & _). eauto.
Qed.
Lemma tinv_stream order w : tinv order w -> order <> [] ->
  exists seed time, seeded_by seed time /\ concat (map snd order) = rbg_stream seed time (total order).
Proof.
  intros (_ & _ & H) Ho. assert (Q : forall r, quiet order r -> exists seed time, seeded_by seed time /\ concat (map snd order) = rbg_stream seed time (total order)).
  { intros r [[-> _]|(seed & time & H1 & _ & H2)]; [congruence|eauto]. }
  destruct (w_owner w); [|destruct H; eauto].
  destruct H as [_ (t & e & m & rest & _ & _ & Hb)]. unfold busy in Hb.
  destruct (t_pc t); try (destruct Hb as (seed & time & H1 & H2 & _); exists seed, time; auto; fail); [tauto|eauto|tauto].
Qed.

(** ** progress *)
Definition work (w : world) : Prop := exists i t, w_threads w i = Some t /\ t_todo t <> [].
Definition pcm (n : nat) (p : pc) : nat :=
  match p with
  | PStart => 0
  | PCheck => 40 * n + 50
  | PSeed => 40 * n + 40
  | PLoop _ l _ => 40 * l + 5
  | PX _ l _ j _ => 40 * l + 6 + 4 * (8 - j)
  | PS _ l _ j _ _ => 40 * l + 5 + 4 * (8 - j)
  | PE _ l _ j _ _ => 40 * l + 4 + 4 * (8 - j)
  | PUnlock _ _ => 1
  end.
Lemma owner_finishes k : forall order w i t e n rest, tinv order w -> w_owner w = Some i -> w_threads w i = Some t -> t_todo t = (e, n) :: rest ->
  (pcm (loop_bound n) (t_pc t) <= k)%nat -> exists w', (exists m, w' = trun w (repeat i m)) /\ w_owner w' = None /\
    (exists t', w_threads w' i = Some t' /\ t_todo t' = rest) /\ forall j, j <> i -> w_threads w' j = w_threads w j.
Proof.
  induction k as [|k IH]; intros order w i t e n rest Hinv Ho Ht Htodo Hm.
  - assert (Hp : t_pc t = PStart) by (destruct (t_pc t); cbn in Hm; try lia; reflexivity).
    destruct Hinv as (_ & _ & H). rewrite Ho in H. destruct H as [_ (t0 & e0 & n0 & r0 & H1 & H2 & H3)].
    rewrite Ht in H1. inversion H1; subst. rewrite Hp in H3. destruct H3.
  - destruct (tstep_inv order w i Hinv) as (order1 & Hinv1 & _).
    assert (Hnp : t_pc t <> PStart).
    { destruct Hinv as (_ & _ & H). rewrite Ho in H. destruct H as [_ (t0 & e0 & n0 & r0 & H1 & H2 & H3)].
      rewrite Ht in H1. inversion H1; subst. intros Hp. rewrite Hp in H3. destruct H3. }
    assert (Hj : match t_pc t with PX _ _ _ j _ | PS _ _ _ j _ _ | PE _ _ _ j _ _ => (j < 8)%nat | _ => True end).
    { destruct Hinv as (_ & _ & H). rewrite Ho in H. destruct H as [_ (t0 & e0 & n0 & r0 & H1 & H2 & H3)].
      rewrite Ht in H1. inversion H1; subst. unfold busy in H3. destruct (t_pc t0); auto; destruct H3 as (? & ? & ? & ? & ? & ? & ? & ?); assumption. }
    assert (Step : (exists t1, w_owner (tstep w i) = Some i /\ w_threads (tstep w i) i = Some t1 /\ t_todo t1 = (e, n) :: rest /\
                      (pcm (loop_bound n) (t_pc t1) <= k)%nat /\ forall j, j <> i -> w_threads (tstep w i) j = w_threads w j) \/
                   (w_owner (tstep w i) = None /\ (exists t', w_threads (tstep w i) i = Some t' /\ t_todo t' = rest) /\
                      forall j, j <> i -> w_threads (tstep w i) j = w_threads w j)).
    { unfold tstep. rewrite Ht, Htodo.
      destruct (t_pc t) as [| | |rv [|k0] out|rv k0 out j b|rv k0 out j b x|rv k0 out j b x|rv out] eqn:Hpc; [congruence| | | | | | | |].
      1,2,3,4,5,6,7: left. all: try destruct (status_nolock (w_r w) e) as [r' rv].
      1,2,3,4,5,6,7: eexists; split; [exact Ho|]; cbn [w_threads]; rewrite tset_same; split; [reflexivity|]; cbn [t_todo t_pc]; split; [exact Htodo || reflexivity|]; split;
        [|intros; now apply tset_other].
      - destruct (r_init (w_r w)); cbn [pcm] in *; lia.
      - cbn [pcm] in *; lia.
      - cbn [pcm] in *; lia.
      - cbn [pcm] in *; lia.
      - cbn [pcm] in *; lia.
      - cbn [pcm] in *; lia.
      - destruct (Nat.eqb_spec j 7); cbn [pcm] in *; lia.
      - right. split; [reflexivity|]. cbn [w_threads]. rewrite tset_same. split; [eauto|]. intros; now apply tset_other. }
    destruct Step as [(t1 & S1 & S2 & S3 & S4 & S5)|(S1 & S2 & S3)].
    + destruct (IH order1 _ i t1 e n rest Hinv1 S1 S2 S3 S4) as (w' & (m & Hw') & A1 & A2 & A3).
      exists w'. split; [exists (S m); exact Hw'|]. split; [exact A1|]. split; [exact A2|]. intros j Hne. rewrite A3 by exact Hne. auto.
    + exists (tstep w i). split; [exists 1%nat; reflexivity|]. auto.
Qed.

Definition todo_at (w : world) (i : nat) : nat := match w_threads w i with Some t => length (t_todo t) | None => 0 end.
Definition load_ (w : world) : nat := list_sum (map (todo_at w) (seq 0 (length reqs))).
Lemma sum_update (f g : nat -> nat) i n : (i < n)%nat -> (g i < f i)%nat -> (forall j, j <> i -> g j = f j) ->
  (list_sum (map g (seq 0 n)) < list_sum (map f (seq 0 n)))%nat.
Proof.
  intros Hi Hlt He. induction n; [lia|]. rewrite !seq_S, !map_app, !list_sum_app. cbn [map list_sum fold_right plus].
  destruct (Nat.eq_dec i n) as [->|Hne].
  - assert (map g (seq 0 n) = map f (seq 0 n)) as ->; [|lia]. apply map_ext_in. intros a Ha. apply in_seq in Ha. apply He. lia.
  - rewrite (He n) by lia. assert (list_sum (map g (seq 0 n)) < list_sum (map f (seq 0 n)))%nat by (apply IHn; lia). lia.
Qed.
Lemma trun_app w a b : trun w (a ++ b) = trun (trun w a) b.
Proof. apply fold_left_app. Qed.
Lemma tinv_run sched : forall order w, tinv order w -> exists order', tinv order' (trun w sched).
Proof.
  induction sched as [|i sched IH]; intros order w H; [eauto|]. destruct (tstep_inv order w i H) as (o1 & H1 & _). exact (IH o1 _ H1).
Qed.
(** from any reachable world, some schedule completes one more request *)
Lemma one_more order w : tinv order w -> work w -> exists sched, (load_ (trun w sched) < load_ w)%nat.
Proof.
  intros Hinv Hw.
  assert (Own : forall order w i, tinv order w -> w_owner w = Some i -> exists sched, (load_ (trun w sched) < load_ w)%nat).
  { clear - Hreqs. intros order w i Hinv Ho. pose proof Hinv as (_ & Hnone & H). rewrite Ho in H.
    destruct H as [_ (t & e & n & rest & Ht & Htodo & _)].
    destruct (owner_finishes _ order w i t e n rest Hinv Ho Ht Htodo (Nat.le_refl _)) as (w' & (m & ->) & _ & (t' & A1 & A2) & A3).
    exists (repeat i m). unfold load_. apply (sum_update _ _ i).
    - destruct (Nat.lt_ge_cases i (length reqs)); auto. rewrite Hnone in Ht by assumption. discriminate.
    - unfold todo_at. rewrite A1, Ht, A2, Htodo. cbn [length]. lia.
    - intros j Hj. unfold todo_at. now rewrite A3. }
  destruct (w_owner w) as [i|] eqn:Ho; [eauto|].
  destruct Hw as (i & t & Ht & Hne). destruct (t_todo t) as [|[e n] rest] eqn:Htodo; [congruence|].
  pose proof Hinv as (_ & _ & H). rewrite Ho in H. destruct H as [_ Hall].
  assert (E : tstep w i = W (w_r w) (Some i) (tset (w_threads w) i (TH PCheck (t_todo t) (t_done t)))).
  { unfold tstep. rewrite Ht, Htodo, (Hall _ _ Ht), Ho. reflexivity. }
  destruct (tstep_inv order w i Hinv) as (o1 & H1 & _).
  destruct (Own o1 (tstep w i) i H1) as (sched & Hs); [now rewrite E|].
  exists (i :: sched). change (trun w (i :: sched)) with (trun (tstep w i) sched).
  assert (load_ (tstep w i) = load_ w); [|lia]. unfold load_. f_equal. apply map_ext_in. intros j _. unfold todo_at. rewrite E. cbn [w_threads].
  destruct (Nat.eq_dec j i) as [->|Hj]; [rewrite tset_same, Ht; reflexivity|now rewrite tset_other].
Qed.
Lemma work_dec w order : tinv order w -> work w \/ forall i t, w_threads w i = Some t -> t_todo t = [].
Proof.
  intros (_ & Hnone & _). 
  assert (D : forall n, (exists i t, w_threads w i = Some t /\ t_todo t <> []) \/ forall i t, (i < n)%nat -> w_threads w i = Some t -> t_todo t = []).
  { induction n as [|n [IH|IH]]; [right; intros; lia|left; exact IH|].
    destruct (w_threads w n) as [t|] eqn:Ht; [destruct (t_todo t) eqn:Htt|].
    - right. intros i t' Hi Ht'. destruct (Nat.eq_dec i n) as [->|]; [congruence|]. apply (IH i); auto; lia.
    - left. exists n, t. split; [auto|congruence].
    - right. intros i t' Hi Ht'. destruct (Nat.eq_dec i n) as [->|]; [congruence|]. apply (IH i); auto; lia. }
  destruct (D (length reqs)) as [H|H]; [left; exact H|right]. intros i t Ht. apply (H i); auto.
  destruct (Nat.lt_ge_cases i (length reqs)); auto. rewrite Hnone in Ht by assumption. discriminate.
Qed.
Lemma all_complete k : forall order w, tinv order w -> (load_ w <= k)%nat ->
  exists sched, forall i t, w_threads (trun w sched) i = Some t -> t_todo t = [].
Proof.
  induction k as [|k IH]; intros order w Hinv Hk; (destruct (work_dec w order Hinv) as [Hw|Hw]; [|exists []; exact Hw]);
    destruct (one_more order w Hinv Hw) as (s1 & Hs1); [lia|].
  destruct (tinv_run s1 order w Hinv) as (o1 & H1). destruct (IH o1 _ H1) as (s2 & H2); [lia|]. exists (s1 ++ s2). rewrite trun_app. exact H2.
Qed.
End T.

Lemma threads_stream reqs sched : (forall q, In q reqs -> Forall good_request q) ->
  exists order, completed reqs (trun (twith reqs) sched) order /\
    (order = [] \/ exists q e n seed, In q reqs /\ In (e, n) q /\ e_seed e = Some seed /\
       let d := concat (map snd order) in d = rbg_stream seed (e_time e) (length d)).
Proof.
  intros H. destruct (trun_inv reqs H sched) as (order & Hinv). exists order. split; [apply Hinv|].
  destruct order as [|p order']; [now left|right].
  destruct (tinv_stream reqs (p :: order') _ Hinv) as (seed & time & (e & (q & n & A1 & A2 & A3) & A4) & A5); [discriminate|].
  exists q, e, n, seed. repeat split; auto. subst time. exact A5.
Qed.
Lemma threads_progress reqs sched : (forall q, In q reqs -> Forall good_request q) ->
  exists sched', forall i t, w_threads (trun (twith reqs) (sched ++ sched')) i = Some t -> t_todo t = [].
Proof.
  intros H. destruct (trun_inv reqs H sched) as (order & Hinv).
  destruct (all_complete reqs H _ order _ Hinv (Nat.le_refl _)) as (s & Hs). exists s. rewrite trun_app. exact Hs.
Qed.
