From Verif Require Import Base Lib Model_Gost89 Spec_Gost89 Proof_Gost89 Model_Params Spec_Params Proof_Params Model_Hash Spec_Hash Proof_Hash Proof_HashStream Spec_Md.
From Coq Require Import Lia ZifyN ZifyNat ZifyBool.
#[local] Opaque hash_step chi gost_init unpack_sbox default_sbox.

(** The concrete state of each context against its slot. *)
Definition slot_rep (st : md_state) (p : nat) (s : slot) : Prop :=
  match s with
  | Absent => md_d st p = None /\ md_c st p = None
  | Raw => (exists h, md_d st p = Some h) /\ (exists c, md_c st p = Some c)
  | Active sb m => hashable (length m) /\ exists h, md_d st p = Some h /\ rep (packed_sbox sb) (md_c st) p h m
  end.
Definition inv (a : slots) (st : md_state) : Prop := forall p, slot_rep st p (a p).

Lemma dset_same d p v : dset d p v p = v.
Proof. unfold dset. rewrite Nat.eqb_refl. reflexivity. Qed.
Lemma dset_other d p q v : q <> p -> dset d p v q = d q.
Proof. intros H. unfold dset. destruct (Nat.eqb_spec q p); [contradiction|reflexivity]. Qed.
Lemma sset_same a p v : sset a p v p = v.
Proof. unfold sset. rewrite Nat.eqb_refl. reflexivity. Qed.
Lemma sset_other a p q v : q <> p -> sset a p v q = a q.
Proof. intros H. unfold sset. destruct (Nat.eqb_spec q p); [contradiction|reflexivity]. Qed.

Lemma rep_cm S cm cm' p h m : cm' p = cm p -> rep S cm p h m -> rep S cm' p h m.
Proof.
  intros E (bs & rest & (A & B & C) & D). exists bs, rest. split; [|exact D]. split; [exact A|]. split; [rewrite E; exact B|exact C].
Qed.
(** A change confined to context [p] leaves the other contexts as they are. *)
Lemma inv_local a st st' p s : inv a st -> slot_rep st' p s ->
  (forall q, q <> p -> md_d st' q = md_d st q /\ md_c st' q = md_c st q) -> inv (sset a p s) st'.
Proof.
  intros H Hp Ho q. destruct (Nat.eq_dec q p) as [->|Hq]; [rewrite sset_same; exact Hp|].
  rewrite sset_other by exact Hq. destruct (Ho q Hq) as [E1 E2]. specialize (H q). unfold slot_rep in *. rewrite E1.
  destruct (a q); try (rewrite E2; exact H). destruct H as (Hh & h & A & B). split; [exact Hh|]. exists h. split; [exact A|].
  eapply rep_cm; [exact E2|exact B].
Qed.
Lemma inv_same a st st' p : inv a st -> slot_rep st' p (a p) ->
  (forall q, q <> p -> md_d st' q = md_d st q /\ md_c st' q = md_c st q) -> inv a st'.
Proof.
  intros H Hp Ho. pose proof (inv_local a st st' p (a p) H Hp Ho) as R. intros q. specialize (R q).
  destruct (Nat.eq_dec q p) as [->|Hq]; [exact Hp|]. rewrite sset_other in R by exact Hq. exact R.
Qed.
Lemma present_mem a st p : inv a st -> present (a p) -> (exists h, md_d st p = Some h) /\ (exists c, md_c st p = Some c).
Proof.
  intros H Hp. specialize (H p). unfold present, slot_rep in *. destruct (a p) as [| |sb m]; [congruence|exact H|].
  destruct H as (_ & h & A & (bs & rest & (_ & (c & B & _) & _) & _)). split; eauto.
Qed.

Lemma sbox_loaded sb c : bytesn 64 sb -> has_sbox (packed_sbox sb) (gost_init c (Some (unpack_sbox sb))).
Proof.
  intros Hs. pose proof (unpack_wf sb) as Hw. pose proof (kboxinit_has_sbox c _ Hw) as [A B].
  Local Transparent gost_init. unfold gost_init. split; [exact A|].
  intros x Hx. rewrite B by exact Hx. f_equal. unfold subst32. apply fold_right_ext_in.
  intros i acc Hi. apply in_seq in Hi. f_equal. f_equal. unfold sb_fun, packed_sbox. apply unpack_entry; [exact Hs|lia|]. pose proof (N.mod_lt (x / 16 ^ N.of_nat i) 16). lia.
Qed.
#[local] Opaque gost_init.
Lemma fresh_rep sb cm p c : bytesn 64 sb -> cm p = Some (gost_init c (Some (unpack_sbox sb))) ->
  rep (packed_sbox sb) cm p (HC 0 (Some p) 0 (zeros 32) (zeros 32) (zeros 32)) [].
Proof.
  intros Hs E. exists [], []. split; [|repeat split; try constructor; try reflexivity; cbn; lia].
  unfold core. cbn [h_cipher h_H h_S h_len]. split; [reflexivity|].
  split; [eexists; split; [exact E|apply sbox_loaded, Hs]|].
  split; [constructor|]. split; [split; [apply bytes_zeros|apply length_zeros]|]. split; [rewrite le_val_zeros; reflexivity|].
  split; [split; [apply bytes_zeros|apply length_zeros]|]. split; [rewrite le_val_zeros|]; reflexivity.
Qed.
(** With no message yet the S-box can still be exchanged. *)
Lemma rep_nil_any S S' cm cm' p h : rep S cm p h [] -> (exists c, cm' p = Some c /\ has_sbox S' c) -> rep S' cm' p h [].
Proof.
  intros (bs & rest & (A & B & C & D & E & F & G & I) & J & K) Hc.
  symmetry in J. apply app_eq_nil in J. destruct J as [J1 J2]. subst rest.
  assert (bs = []) as ->.
  { destruct bs as [|b bs]; [reflexivity|]. inversion C as [|? ? [_ Hb] _]; subst. cbn in J1. apply app_eq_nil in J1. destruct J1 as [J1 _].
    rewrite J1 in Hb. discriminate. }
  exists [], []. split; [|split; [reflexivity|exact K]]. split; [exact A|]. split; [exact Hc|]. split; [exact C|]. split; [exact D|].
  cbn [map fold_left] in E |- *. split; [exact E|]. split; [exact F|]. split; [exact G|exact I].
Qed.

Lemma sim a st o : inv a st -> legal_op a o ->
  exists st', md_step st o = Some (st', snd (spec_op a o)) /\ inv (fst (spec_op a o)) st'.
Proof.
  intros Hi Hl. destruct o as [p h c|p k|p d|p|t f|p|p cmd p1 p2|p]; cbn [legal_op spec_op fst snd md_step] in *.
  - (* alloc *)
    eexists. split; [reflexivity|]. apply inv_local with (st := st); [exact Hi| |].
    + cbn. rewrite dset_same, cset_same. split; eauto.
    + intros q Hq. cbn. rewrite dset_other, cset_other by exact Hq. auto.
  - (* init *)
    destruct Hl as [Hp Hs]. destruct (present_mem _ _ _ Hi Hp) as [_ (c & Ec)]. unfold md_init. rewrite Ec.
    eexists. split; [reflexivity|]. apply inv_local with (st := st); [exact Hi| |].
    + cbn [slot_rep md_d md_c]. split; [unfold hashable; cbn; lia|]. eexists. split; [apply dset_same|].
      change (sbox_source k) with (selected k). eapply fresh_rep; [exact Hs|apply cset_same].
    + intros q Hq. cbn. rewrite dset_other, cset_other by exact Hq. auto.
  - (* update *)
    destruct Hl as [Hd Hl]. pose proof (Hi p) as Hp. destruct (a p) as [| |sb m] eqn:Ea; try contradiction.
    destruct Hp as (_ & h & Eh & Hr). unfold md_update. rewrite Eh. unfold hashable in Hl.
    destruct (hash_block_ok _ _ _ _ _ d Hr Hd) as (cm & h' & E & Hr' & Fr); [unfold LLONG_MAX; lia|]. rewrite E.
    eexists. split; [reflexivity|]. apply inv_local with (st := st); [exact Hi| |].
    + cbn [slot_rep md_d md_c]. split; [unfold hashable; rewrite app_length; exact Hl|]. eexists. split; [apply dset_same|exact Hr'].
    + intros q Hq. cbn. rewrite dset_other by exact Hq. split; [reflexivity|apply Fr, Hq].
  - (* final *)
    pose proof (Hi p) as Hp. destruct (a p) as [| |sb m] eqn:Ea; try contradiction.
    destruct Hp as (Hh & h & Eh & Hr). unfold md_final. rewrite Eh. unfold hashable in Hh.
    destruct (finish_ok _ _ _ _ _ Hr) as (cm & E & Hr' & Fr); [unfold LLONG_MAX; lia|]. rewrite E.
    eexists. split; [reflexivity|]. apply inv_same with (st := st) (p := p); [exact Hi| |].
    + rewrite Ea. cbn [slot_rep md_d md_c]. split; [exact Hh|]. eexists. split; [exact Eh|exact Hr'].
    + intros q Hq. cbn. split; [reflexivity|apply Fr, Hq].
  - (* copy *)
    eexists. split; [reflexivity|]. unfold md_copy.
    pose proof (Hi t) as Ht. pose proof (Hi f) as Hf.
    assert (Hsame : forall v w, inv (sset a t v) (MD (dset (md_d st) t (Some w)) (md_c st)) \/ True) by (intros; right; exact I). clear Hsame.
    assert (Hcase : present (a t) -> present (a f) -> inv (sset a t (a f))
      (match md_d st t, md_d st f, md_c st f with
       | Some _, Some h, Some c => MD (dset (md_d st) t (Some (HC (h_len h) (Some t) (h_left h) (h_H h) (h_S h) (h_rem h)))) (cset (md_c st) t (Some c))
       | _, _, _ => st end)).
    { intros Pt Pf. destruct (present_mem _ _ _ Hi Pt) as [(h1 & E1) _]. destruct (present_mem _ _ _ Hi Pf) as [(h2 & E2) (c2 & E3)].
      rewrite E1, E2, E3. apply inv_local with (st := st); [exact Hi| |].
      - destruct (a f) as [| |sb m] eqn:Ef; [congruence| |].
        + cbn. rewrite dset_same, cset_same. split; eauto.
        + cbn [slot_rep md_d md_c] in *. destruct Hf as (Hh & h & A & B). split; [exact Hh|]. rewrite A in E2. injection E2 as <-.
          eexists. split; [apply dset_same|]. destruct B as (bs & rest & (B1 & (c' & B2 & B2') & B3) & C).
          rewrite E3 in B2. injection B2 as <-.
          exists bs, rest. split; [|exact C]. split; [reflexivity|]. split; [|exact B3]. exists c2. split; [apply cset_same|exact B2'].
      - intros q Hq. cbn. rewrite dset_other, cset_other by exact Hq. auto. }
    destruct (a t) as [| |sb m] eqn:Et.
    + destruct Ht as [Ht _]. rewrite Ht. exact Hi.
    + destruct (a f) as [| |sb2 m2] eqn:Ef.
      * destruct Hf as [Hf _]. rewrite Hf. destruct Ht as [(h & ->) _]. exact Hi.
      * apply Hcase; discriminate.
      * apply Hcase; discriminate.
    + destruct (a f) as [| |sb2 m2] eqn:Ef.
      * destruct Hf as [Hf _]. rewrite Hf. destruct Ht as (_ & h & -> & _). exact Hi.
      * apply Hcase; discriminate.
      * apply Hcase; discriminate.
  - (* cleanup *)
    eexists. split; [reflexivity|]. unfold md_cleanup.
    assert (Hcase : present (a p) -> inv (sset a p Raw)
      (match md_d st p with None => st | Some _ => MD (dset (md_d st) p (Some zero_dctx)) (cset (md_c st) p (Some zero_ctx)) end)).
    { intros Pp. destruct (present_mem _ _ _ Hi Pp) as [(h1 & E1) _]. rewrite E1. apply inv_local with (st := st); [exact Hi| |].
      - cbn. rewrite dset_same, cset_same. split; eauto.
      - intros q Hq. cbn. rewrite dset_other, cset_other by exact Hq. auto. }
    destruct (a p) as [| |sb m] eqn:Ea; [|apply Hcase; discriminate|apply Hcase; discriminate].
    pose proof (Hi p) as Hp. rewrite Ea in Hp. destruct Hp as [-> _]. exact Hi.
  - (* ctrl *)
    destruct Hl as [Pp Hs]. unfold md_ctrl. change 4097%Z with MD_SET_CUSTOM_SBOX. destruct (Z.eqb_spec cmd MD_SET_CUSTOM_SBOX) as [Hc|Hc]; cbn [andb].
    2:{ eexists. split; [reflexivity|exact Hi]. }
    destruct p2 as [s|].
    2:{ eexists. split; [reflexivity|]. destruct (p1 =? 64)%Z; exact Hi. }
    destruct (Z.eqb_spec p1 64) as [H64|H64].
    2:{ eexists. split; [reflexivity|exact Hi]. }
    specialize (Hs s eq_refl H64). destruct (present_mem _ _ _ Hi Pp) as [(h & Eh) (c & Ec)]. rewrite Ec.
    eexists. split; [reflexivity|].
    assert (Ho : forall q, q <> p -> md_d (MD (md_d st) (cset (md_c st) p (Some (gost_init c (Some (unpack_sbox s)))))) q = md_d st q /\
      md_c (MD (md_d st) (cset (md_c st) p (Some (gost_init c (Some (unpack_sbox s)))))) q = md_c st q).
    { intros q Hq. cbn. rewrite cset_other by exact Hq. auto. }
    pose proof (Hi p) as Hp.
    destruct (a p) as [| |sb m] eqn:Ea; [congruence| |destruct m as [|x m]].
    + apply inv_local with (st := st); [exact Hi| |exact Ho]. cbn. rewrite cset_same. split; eauto.
    + apply inv_local with (st := st); [exact Hi| |exact Ho]. cbn [slot_rep md_d md_c] in *.
      destruct Hp as (Hh & h' & A & B). split; [exact Hh|]. exists h'. split; [exact A|]. eapply rep_nil_any; [exact B|].
      eexists. split; [apply cset_same|apply sbox_loaded, Hs].
    + apply inv_local with (st := st); [exact Hi| |exact Ho]. cbn. rewrite cset_same. split; eauto.
  - (* free *)
    eexists. split; [reflexivity|]. apply inv_local with (st := st); [exact Hi| |].
    + cbn. rewrite dset_same, cset_same. split; reflexivity.
    + intros q Hq. cbn. rewrite dset_other, cset_other by exact Hq. auto.
Qed.

Lemma md_refines_from os : forall a st, inv a st -> legal a os -> exists st', md_run st os = Some (st', spec_outs a os).
Proof.
  induction os as [|o os IH]; intros a st Hi Hl; [exists st; reflexivity|].
  destruct Hl as [Hl1 Hl2]. destruct (sim a st o Hi Hl1) as (st1 & E & Hi1). cbn [md_run spec_outs]. cbv zeta.
  destruct (IH _ _ Hi1 Hl2) as (st2 & E2). rewrite E, E2. exists st2. reflexivity.
Qed.
Lemma md_refines os : legal no_slots os -> exists st', md_run md_empty os = Some (st', spec_outs no_slots os).
Proof. apply md_refines_from. intros p. split; reflexivity. Qed.

(** ** library histories *)
Lemma lib_digest cm0 p junk b ds : sb_wf b -> Forall bytes ds -> hashable (length (concat ds)) ->
  let r0 := init_gost_hash_ctx cm0 p junk b in
  exists cm1 h1 cm2, hash_blocks (fst r0) (snd r0) ds = Some (cm1, h1) /\ finish_hash cm1 h1 = Some (cm2, digest (sb_fun b) (concat ds)).
Proof.
  intros Hb Hd Hh r0. unfold hashable in Hh.
  destruct (blocks_ok _ p ds _ _ _ (init_rep cm0 p junk b Hb) Hd) as (cm1 & h1 & E1 & R1 & _); [unfold LLONG_MAX; cbn [length]; lia|].
  destruct (finish_ok _ _ _ _ _ R1) as (cm2 & E2 & _ & _); [unfold LLONG_MAX; cbn [app]; lia|]. cbn [app] in *. eauto.
Qed.
Lemma lib_continue cm0 p junk b ds1 ds2 : sb_wf b -> Forall bytes ds1 -> Forall bytes ds2 -> hashable (length (concat ds1 ++ concat ds2)) ->
  let r0 := init_gost_hash_ctx cm0 p junk b in
  exists cm1 h1 cm2 cm3 cm4 h4 cm5, hash_blocks (fst r0) (snd r0) ds1 = Some (cm1, h1) /\
    finish_hash cm1 h1 = Some (cm2, digest (sb_fun b) (concat ds1)) /\
    finish_hash cm2 h1 = Some (cm3, digest (sb_fun b) (concat ds1)) /\
    hash_blocks cm3 h1 ds2 = Some (cm4, h4) /\
    finish_hash cm4 h4 = Some (cm5, digest (sb_fun b) (concat ds1 ++ concat ds2)).
Proof.
  intros Hb Hd1 Hd2 Hh r0. unfold hashable in Hh. rewrite app_length in Hh.
  destruct (blocks_ok _ p ds1 _ _ _ (init_rep cm0 p junk b Hb) Hd1) as (cm1 & h1 & E1 & R1 & _); [unfold LLONG_MAX; cbn [length]; lia|].
  cbn [app] in R1.
  destruct (finish_ok _ _ _ _ _ R1) as (cm2 & E2 & R2 & _); [unfold LLONG_MAX; lia|].
  destruct (finish_ok _ _ _ _ _ R2) as (cm3 & E3 & R3 & _); [unfold LLONG_MAX; lia|].
  destruct (blocks_ok _ p ds2 _ _ _ R3 Hd2) as (cm4 & h4 & E4 & R4 & _); [unfold LLONG_MAX; lia|].
  destruct (finish_ok _ _ _ _ _ R4) as (cm5 & E5 & _ & _); [unfold LLONG_MAX; rewrite app_length; lia|].
  exists cm1, h1, cm2, cm3, cm4, h4, cm5. auto.
Qed.
Lemma lib_restart cm0 p junk b ds1 ds2 : sb_wf b -> Forall bytes ds1 -> Forall bytes ds2 -> hashable (length (concat ds1)) -> hashable (length (concat ds2)) ->
  let r0 := init_gost_hash_ctx cm0 p junk b in
  exists cm1 h1 cm2 h2 cm3, hash_blocks (fst r0) (snd r0) ds1 = Some (cm1, h1) /\
    fst (start_hash h1) = 1%Z /\ hash_blocks cm1 (snd (start_hash h1)) ds2 = Some (cm2, h2) /\
    finish_hash cm2 h2 = Some (cm3, digest (sb_fun b) (concat ds2)).
Proof.
  intros Hb Hd1 Hd2 Hh1 Hh2 r0. unfold hashable in *.
  destruct (blocks_ok _ p ds1 _ _ _ (init_rep cm0 p junk b Hb) Hd1) as (cm1 & h1 & E1 & R1 & _); [unfold LLONG_MAX; cbn [length]; lia|].
  destruct (start_rep _ _ _ _ _ R1) as [E2 R2].
  destruct (blocks_ok _ p ds2 _ _ _ R2 Hd2) as (cm2 & h2 & E3 & R3 & _); [unfold LLONG_MAX; cbn [length]; lia|].
  destruct (finish_ok _ _ _ _ _ R3) as (cm3 & E4 & _ & _); [unfold LLONG_MAX; cbn [app]; lia|].
  exists cm1, h1, cm2, h2, cm3. auto.
Qed.
Lemma lib_too_long cm0 p junk b ds : sb_wf b -> Forall bytes ds -> 2 ^ 60 <= N.of_nat (length (concat ds)) < 2 ^ 63 ->
  let r0 := init_gost_hash_ctx cm0 p junk b in
  exists cm1 h1, hash_blocks (fst r0) (snd r0) ds = Some (cm1, h1) /\ finish_hash cm1 h1 = None.
Proof.
  intros Hb Hd Hh r0.
  destruct (blocks_ok _ p ds _ _ _ (init_rep cm0 p junk b Hb) Hd) as (cm1 & h1 & E1 & R1 & _); [unfold LLONG_MAX; cbn [length]; lia|].
  exists cm1, h1. split; [exact E1|]. eapply finish_overflow; [exact R1|]. unfold LLONG_MAX. cbn [app]. lia.
Qed.
Lemma lib_long_exists : exists b ds, sb_wf b /\ Forall bytes ds /\ N.of_nat (length (concat ds)) < 2 ^ 63 /\
  let r0 := init_gost_hash_ctx (fun _ => None) 0 zero_ctx b in
  exists cm1 h1, hash_blocks (fst r0) (snd r0) ds = Some (cm1, h1) /\ finish_hash cm1 h1 = None.
Proof.
  exists GostR3411_94_TestParamSet, [zeros (N.to_nat (2 ^ 60))].
  assert (Hb : sb_wf GostR3411_94_TestParamSet) by (repeat split; repeat constructor).
  assert (Hd : Forall bytes [zeros (N.to_nat (2 ^ 60))]) by (constructor; [apply bytes_zeros|constructor]).
  assert (Hl : N.of_nat (length (concat [zeros (N.to_nat (2 ^ 60))])) = 2 ^ 60).
  { cbn [concat]. rewrite app_length, length_zeros, Nat.add_0_r. apply N2Nat.id. }
  split; [exact Hb|]. split; [exact Hd|]. split; [rewrite Hl; reflexivity|].
  apply lib_too_long; [exact Hb|exact Hd|]. rewrite Hl. split; [apply N.le_refl|reflexivity].
Qed.

(** ** EVP: selection of the S-box *)
Lemma md_selects h c k ds : bytesn 64 (selected k) -> Forall bytes ds -> hashable (length (concat ds)) ->
  exists st, md_run md_empty (MAlloc 0 h c :: MInit 0 k :: map (MUpdate 0) ds ++ [MFinal 0]) = Some (st, [digest (packed_sbox (selected k)) (concat ds)]).
Proof.
  intros Hs Hd Hh.
  assert (G : forall ds a sb m, a 0%nat = Active sb m -> Forall bytes ds -> hashable (length m + length (concat ds)) ->
    legal a (map (MUpdate 0) ds ++ [MFinal 0]) /\ spec_outs a (map (MUpdate 0) ds ++ [MFinal 0]) = [digest (packed_sbox sb) (m ++ concat ds)]).
  { clear. induction ds as [|d ds IH]; intros a sb m Ea Hd Hh.
    - cbn [map app legal spec_outs spec_op fst snd legal_op]. rewrite Ea. cbn [is_active concat snd]. rewrite app_nil_r. auto.
    - inversion Hd as [|? ? Hd1 Hd2]; subst. cbn [map app legal spec_outs spec_op fst snd legal_op concat] in *. rewrite Ea. cbv zeta. cbn [fst snd].
      rewrite app_length in Hh. destruct (IH (sset a 0 (Active sb (m ++ d))) sb (m ++ d)) as [A B].
      + apply sset_same.
      + exact Hd2.
      + unfold hashable in *. rewrite app_length. lia.
      + split; [split; [split; [exact Hd1|unfold hashable in *; lia]|exact A]|]. rewrite B, app_assoc. reflexivity. }
  destruct (G ds (sset (sset no_slots 0 Raw) 0 (Active (selected k) [])) (selected k) [] (sset_same _ _ _) Hd Hh) as [A B].
  destruct (md_refines (MAlloc 0 h c :: MInit 0 k :: map (MUpdate 0) ds ++ [MFinal 0])) as (st & E).
  { cbn [legal legal_op spec_op fst]. split; [exact I|]. split; [|exact A]. split; [discriminate|exact Hs]. }
  exists st. rewrite E. cbn [spec_outs spec_op fst snd]. cbv zeta. cbn [fst snd]. rewrite B. reflexivity.
Qed.
Lemma md_ctrl_replaces h c k s ds : bytesn 64 (selected k) -> bytesn 64 s -> Forall bytes ds -> hashable (length (concat ds)) ->
  exists st, md_run md_empty (MAlloc 0 h c :: MInit 0 k :: MCtrl 0 MD_SET_CUSTOM_SBOX 64 (Some s) :: map (MUpdate 0) ds ++ [MFinal 0]) = Some (st, [digest (packed_sbox s) (concat ds)]).
Proof.
  intros Hs Hs' Hd Hh.
  assert (G : forall ds a sb m, a 0%nat = Active sb m -> Forall bytes ds -> hashable (length m + length (concat ds)) ->
    legal a (map (MUpdate 0) ds ++ [MFinal 0]) /\ spec_outs a (map (MUpdate 0) ds ++ [MFinal 0]) = [digest (packed_sbox sb) (m ++ concat ds)]).
  { clear. induction ds as [|d ds IH]; intros a sb m Ea Hd Hh.
    - cbn [map app legal spec_outs spec_op fst snd legal_op]. rewrite Ea. cbn [is_active concat snd]. rewrite app_nil_r. auto.
    - inversion Hd as [|? ? Hd1 Hd2]; subst. cbn [map app legal spec_outs spec_op fst snd legal_op concat] in *. rewrite Ea. cbv zeta. cbn [fst snd].
      rewrite app_length in Hh. destruct (IH (sset a 0 (Active sb (m ++ d))) sb (m ++ d)) as [A B].
      + apply sset_same.
      + exact Hd2.
      + unfold hashable in *. rewrite app_length. lia.
      + split; [split; [split; [exact Hd1|unfold hashable in *; lia]|exact A]|]. rewrite B, app_assoc. reflexivity. }
  set (a2 := sset (sset no_slots 0 Raw) 0 (Active (selected k) [])).
  destruct (G ds (sset a2 0 (Active s [])) s [] (sset_same _ _ _) Hd Hh) as [A B].
  assert (Ec : fst (spec_op a2 (MCtrl 0 MD_SET_CUSTOM_SBOX 64 (Some s))) = sset a2 0 (Active s [])) by reflexivity.
  destruct (md_refines (MAlloc 0 h c :: MInit 0 k :: MCtrl 0 MD_SET_CUSTOM_SBOX 64 (Some s) :: map (MUpdate 0) ds ++ [MFinal 0])) as (st & E).
  { cbn [legal]. split; [exact I|]. split; [split; [discriminate|exact Hs]|].
    split; [split; [discriminate|]; intros ? [= <-] _; exact Hs'|]. exact A. }
  exists st. rewrite E. cbn [spec_outs]. cbv zeta. change (fst (spec_op (fst (spec_op no_slots (MAlloc 0 h c))) (MInit 0 k))) with a2.
  rewrite Ec, B. reflexivity.
Qed.
Lemma md_ctrl_refused st p cmd p1 p2 : ~ (cmd = MD_SET_CUSTOM_SBOX /\ p1 = 64%Z /\ p2 <> None) -> md_ctrl st p cmd p1 p2 = Some (st, 0%Z).
Proof.
  intros H. unfold md_ctrl. change 4097%Z with MD_SET_CUSTOM_SBOX. destruct (Z.eqb_spec cmd MD_SET_CUSTOM_SBOX) as [->|]; [|reflexivity].
  destruct p2 as [s|]; [|reflexivity]. destruct (Z.eqb_spec p1 64) as [->|]; [|reflexivity].
  exfalso. apply H. repeat split. discriminate.
Qed.
Lemma md_ctrl_code st p s : md_c st p <> None -> exists st', md_ctrl st p MD_SET_CUSTOM_SBOX 64 (Some s) = Some (st', 1%Z).
Proof. intros H. unfold md_ctrl. cbn. destruct (md_c st p); [eauto|congruence]. Qed.
Lemma lib_digest1 cm0 p junk b m : sb_wf b -> bytes m -> hashable (length m) ->
  let r0 := init_gost_hash_ctx cm0 p junk b in
  exists cm1 h1 cm2, hash_blocks (fst r0) (snd r0) [m] = Some (cm1, h1) /\ finish_hash cm1 h1 = Some (cm2, digest (sb_fun b) m).
Proof.
  intros Hb Hm Hh. pose proof (lib_digest cm0 p junk b [m] Hb) as H. cbn [concat] in H. rewrite app_nil_r in H. apply H; [|exact Hh].
  constructor; [exact Hm|constructor].
Qed.
