From Verif Require Import Base Lib Model_Gost89 Spec_Gost89 Proof_Gost89 Model_Params Spec_Params Proof_Params Model_Hash Spec_Hash Proof_Hash.
From Coq Require Import Lia ZifyN ZifyNat ZifyBool.

#[local] Opaque hash_step chi.

Definition sum256 (bs : list N) : N := fold_left (fun a b => (a + b) mod 2 ^ 256) bs 0.

(** H, control sum and length after the whole blocks [bs]. *)
Definition core (S : sbox) (cm : cmem) (p : nat) (h : hash_ctx) (bs : list (list N)) : Prop :=
  h_cipher h = Some p /\ (exists c, cm p = Some c /\ has_sbox S c) /\ Forall (bytesn 32) bs /\
  bytesn 32 (h_H h) /\ le_val (h_H h) = fold_left (chi S) (map le_val bs) 0 /\
  bytesn 32 (h_S h) /\ le_val (h_S h) = sum256 (map le_val bs) /\
  h_len h = (32 * Z.of_nat (length bs))%Z.
Definition frame (p : nat) (cm cm' : cmem) : Prop := forall q, q <> p -> cm' q = cm q.
Definition rep (S : sbox) (cm : cmem) (p : nat) (h : hash_ctx) (m : list N) : Prop :=
  exists bs rest, core S cm p h bs /\ m = concat bs ++ rest /\ bytes rest /\ (length rest < 32)%nat /\
    h_left h = length rest /\ firstn (length rest) (h_rem h) = rest /\ length (h_rem h) = 32%nat.

Lemma frame_refl p cm : frame p cm cm. Proof. intros q _. reflexivity. Qed.
Lemma frame_trans p a b c : frame p a b -> frame p b c -> frame p a c.
Proof. intros H1 H2 q Hq. rewrite H2, H1; auto. Qed.
Lemma cset_same cm p v : cset cm p v p = v.
Proof. unfold cset. rewrite Nat.eqb_refl. reflexivity. Qed.
Lemma cset_other cm p q v : q <> p -> cset cm p v q = cm q.
Proof. intros H. unfold cset. destruct (Nat.eqb_spec q p); [contradiction|reflexivity]. Qed.

Lemma step_at_ok S cm p c H M : cm p = Some c -> has_sbox S c -> bytesn 32 H -> bytesn 32 M ->
  exists cm' H', step_at cm (Some p) H M = Some (cm', H') /\ frame p cm cm' /\
    (exists c', cm' p = Some c' /\ has_sbox S c') /\ bytesn 32 H' /\ le_val H' = chi S (le_val H) (le_val M).
Proof.
  intros Hc HS HH HM. unfold step_at. rewrite Hc.
  destruct (hash_step_ok S c H M HS HH HM) as (A & B & C). destruct (hash_step c H M) as [c' H']. cbn [fst snd] in *.
  exists (cset cm p (Some c')), H'. split; [reflexivity|]. split; [intros q Hq; apply cset_other, Hq|].
  split; [exists c'; split; [apply cset_same|exact A]|]. split; assumption.
Qed.

Lemma sum256_app a b : sum256 (a ++ [b]) = (sum256 a + b) mod 2 ^ 256.
Proof. unfold sum256. rewrite fold_left_app. reflexivity. Qed.

Lemma absorb_ok S cm p h bs blk : core S cm p h bs -> bytesn 32 blk -> (32 * (Z.of_nat (length bs) + 1) <= LLONG_MAX)%Z ->
  exists cm' h', absorb cm h blk = Some (cm', h') /\ core S cm' p h' (bs ++ [blk]) /\ frame p cm cm' /\
    h_left h' = h_left h /\ h_rem h' = h_rem h.
Proof.
  intros (Hp & (c & Hc & HS) & Hbs & HH & HHv & HSb & HSv & Hl) Hblk Hlen.
  destruct (step_at_ok S cm p c (h_H h) blk Hc HS HH Hblk) as (cm' & H' & E & Fr & Hc' & HH' & HHv').
  unfold absorb. rewrite Hp, E, Hl. cbv zeta.
  replace (LLONG_MAX <? 32 * Z.of_nat (length bs) + 32)%Z with false by lia.
  destruct (add_blocks_ok (h_S h) blk 0) as [S1 S2]; [apply HSb|apply Hblk|destruct HSb as [_ ->], Hblk as [_ ->]; reflexivity|lia|].
  eexists _, _. split; [reflexivity|]. split; [|split; [exact Fr|split; reflexivity]].
  unfold core. cbn [h_cipher h_H h_S h_len]. split; [reflexivity|]. split; [exact Hc'|].
  split; [apply Forall_app; split; [assumption|constructor; [assumption|constructor]]|].
  split; [exact HH'|]. rewrite map_app, fold_left_app. cbn [map fold_left]. split; [rewrite HHv', HHv; reflexivity|].
  destruct HSb as [_ HSl]. rewrite HSl in S1, S2. split; [exact S1|]. split.
  - rewrite S2, sum256_app, HSv, N.add_0_r. change (256 ^ N.of_nat 32) with (2 ^ 256). reflexivity.
  - rewrite app_length. cbn [length]. lia.
Qed.

Lemma whole_ok S p : forall fuel cm h bs block, core S cm p h bs -> bytes block -> (length block < fuel)%nat ->
  (32 * Z.of_nat (length bs) + Z.of_nat (length block) <= LLONG_MAX)%Z ->
  exists cm' h' bs' rest, whole_blocks fuel cm h block = Some (cm', h', rest) /\ block = concat bs' ++ rest /\
    core S cm' p h' (bs ++ bs') /\ (length rest < 32)%nat /\ bytes rest /\ frame p cm cm' /\
    h_left h' = h_left h /\ h_rem h' = h_rem h.
Proof.
  induction fuel as [|k IH]; intros cm h bs block Hc Hb Hf Hlen; [lia|]. cbn [whole_blocks].
  destruct (Nat.leb_spec 32 (length block)) as [H32|H32].
  - assert (Hblk : bytesn 32 (firstn 32 block)) by (split; [apply bytes_firstn, Hb|rewrite firstn_length; lia]).
    destruct (absorb_ok S cm p h bs _ Hc Hblk ltac:(lia)) as (cm1 & h1 & E & C1 & F1 & L1 & R1). rewrite E.
    destruct (IH cm1 h1 (bs ++ [firstn 32 block]) (skipn 32 block) C1 (bytes_skipn _ _ Hb)) as (cm2 & h2 & bs' & rest & E2 & Eb & C2 & Hr & Hrb & F2 & L2 & R2).
    { rewrite skipn_length. lia. } { rewrite app_length, skipn_length. cbn [length]. lia. }
    exists cm2, h2, (firstn 32 block :: bs'), rest. split; [exact E2|].
    split; [cbn [concat]; rewrite <- app_assoc, <- Eb, firstn_skipn; reflexivity|].
    rewrite <- app_assoc in C2. split; [exact C2|]. split; [exact Hr|]. split; [exact Hrb|].
    split; [eapply frame_trans; eassumption|]. split; congruence.
  - exists cm, h, [], block. rewrite app_nil_r. repeat split; auto using frame_refl; apply Hc.
Qed.

Lemma core_set_rem S cm p h bs l r : core S cm p (set_rem h l r) bs <-> core S cm p h bs.
Proof. reflexivity. Qed.

Lemma concat_length32 bs : Forall (bytesn 32) bs -> length (concat bs) = (32 * length bs)%nat.
Proof. induction 1 as [|b bs [_ Hb] Hbs IH]; [reflexivity|]. cbn [concat length]. rewrite app_length. lia. Qed.

(** The tail of hash_block: whole blocks, then the remainder. *)
Lemma tail_ok S p cm h bs block : core S cm p h bs -> bytes block -> h_left h = 0%nat -> length (h_rem h) = 32%nat ->
  (32 * Z.of_nat (length bs) + Z.of_nat (length block) <= LLONG_MAX)%Z ->
  exists cm' h', match whole_blocks (Datatypes.S (length block)) cm h block with
    | None => None
    | Some (cm, h, rest) =>
        Some (cm, match rest with
                  | [] => h
                  | _ => set_rem h (length rest) (rest ++ skipn (length rest) (h_rem h))
                  end)
    end = Some (cm', h') /\ rep S cm' p h' (concat bs ++ block) /\ frame p cm cm'.
Proof.
  intros Hc Hb Hl Hr Hlen.
  destruct (whole_ok S p (Datatypes.S (length block)) cm h bs block Hc Hb ltac:(lia) Hlen) as (cm' & h' & bs' & rest & E & Eb & C & Hrl & Hrb & Fr & L & R).
  rewrite E. eexists _, _. split; [reflexivity|]. split; [|exact Fr].
  exists (bs ++ bs'), rest. rewrite concat_app, <- app_assoc, <- Eb.
  destruct rest as [|x t].
  - split; [exact C|]. split; [reflexivity|]. split; [constructor|]. split; [exact Hrl|]. rewrite L, R, Hl.
    split; [reflexivity|]. split; [reflexivity|exact Hr].
  - split; [apply core_set_rem, C|]. split; [reflexivity|]. split; [exact Hrb|]. split; [exact Hrl|]. cbn [set_rem h_left h_rem].
    split; [reflexivity|]. split.
    + rewrite firstn_app, firstn_all, Nat.sub_diag. cbn [firstn]. apply app_nil_r.
    + rewrite R, app_length, skipn_length, Hr. lia.
Qed.

Lemma rep_bytes S cm p h m : rep S cm p h m -> bytes m.
Proof.
  intros (bs & rest & (_ & _ & Hbs & _) & -> & Hr & _). apply bytes_app; [|exact Hr].
  induction Hbs as [|b bs [Hb _] Hbs IH]; [constructor|]. cbn. apply bytes_app; assumption.
Qed.

Lemma hash_block_ok S cm p h m d : rep S cm p h m -> bytes d -> (Z.of_nat (length m + length d) <= LLONG_MAX)%Z ->
  exists cm' h', hash_block cm h d = Some (cm', h') /\ rep S cm' p h' (m ++ d) /\ frame p cm cm'.
Proof.
  intros (bs & rest & Hc & -> & Hrb & Hrl & Hl & Hf & Hrem) Hd Hlen.
  pose proof (concat_length32 bs ltac:(apply Hc)) as Hcl. rewrite app_length in Hlen.
  unfold hash_block. cbv zeta. destruct (Nat.ltb_spec 0 (h_left h)) as [H0|H0].
  - rewrite Hl in *. rewrite Hf. set (add := Nat.min (32 - length rest) (length d)).
    assert (Hlr : length (rest ++ firstn add d ++ skipn (length rest + add) (h_rem h)) = 32%nat).
    { rewrite !app_length, firstn_length, skipn_length, Hrem. subst add. lia. }
    cbn [set_rem h_left]. destruct (Nat.ltb_spec (length rest + add) 32) as [H1|H1].
    + assert (Ha : add = length d) by (subst add; lia). rewrite Ha in *. rewrite firstn_all in *.
      eexists _, _. split; [reflexivity|]. split; [|apply frame_refl].
      exists bs, (rest ++ d). split; [apply core_set_rem, Hc|]. split; [rewrite app_assoc; reflexivity|].
      split; [apply bytes_app; assumption|]. rewrite app_length. split; [lia|]. cbn [set_rem h_left h_rem].
      split; [reflexivity|]. split; [|exact Hlr]. rewrite app_assoc. rewrite <- (app_length rest d).
      rewrite firstn_app, Nat.sub_diag, firstn_all. cbn [firstn]. apply app_nil_r.
    + assert (Ha : (length rest + add)%nat = 32%nat) by (subst add; lia).
      rewrite Ha in *. replace (skipn 32 (h_rem h)) with (@nil N) in * by (symmetry; apply skipn_all2; lia).
      rewrite app_nil_r in *.
      assert (Hblk : bytesn 32 (rest ++ firstn add d)) by (split; [apply bytes_app; auto using bytes_firstn|exact Hlr]).
      destruct (absorb_ok S cm p (HC (h_len h) (h_cipher h) 32 (h_H h) (h_S h) (rest ++ firstn add d)) bs (rest ++ firstn add d)) as (cm1 & h2 & E & C1 & F1 & L1 & R1).
      { exact Hc. } { exact Hblk. } { subst add. lia. }
      unfold set_rem at 1. rewrite E.
      destruct (tail_ok S p cm1 (set_rem h2 0 (h_rem h2)) (bs ++ [rest ++ firstn add d]) (skipn add d)) as (cm' & h' & E2 & R2 & F2).
      { exact C1. } { apply bytes_skipn, Hd. } { reflexivity. }
      { cbn [set_rem h_rem]. rewrite R1. exact Hlr. }
      { rewrite app_length, skipn_length. cbn [length]. subst add. lia. }
      exists cm', h'. split; [exact E2|]. split; [|eapply frame_trans; eassumption].
      rewrite concat_app in R2. cbn [concat] in R2. rewrite app_nil_r in R2. rewrite <- !app_assoc in R2. rewrite firstn_skipn in R2.
      rewrite <- app_assoc. exact R2.
  - assert (rest = []) as -> by (apply list_len0; lia). rewrite app_nil_r.
    apply tail_ok; auto. cbn [length] in *. lia.
Qed.

(** ** finishing *)
Lemma len_bytes_ok fuel : forall x, (0 <= x)%Z -> (x < 256 ^ Z.of_nat fuel)%Z ->
  exists l, len_bytes fuel x = Some l /\ (length l <= fuel)%nat /\ bytes l /\ le_val l = Z.to_N x.
Proof.
  induction fuel as [|k IH]; intros x H0 Hx.
  - change (256 ^ Z.of_nat 0)%Z with 1%Z in Hx. exists []. cbn [len_bytes]. replace (0 <? x)%Z with false by lia.
    split; [reflexivity|]. split; [cbn; lia|]. split; [constructor|cbn; lia].
  - cbn [len_bytes]. destruct (Z.ltb_spec 0 x) as [H|H].
    + rewrite Z.shiftr_div_pow2 by lia. change (2 ^ 8)%Z with 256%Z.
      rewrite Nat2Z.inj_succ, Z.pow_succ_r in Hx by lia.
      destruct (IH (x / 256)%Z) as (l & E & A & B & C); [apply Z.div_pos; lia|apply Z.div_lt_upper_bound; lia|].
      rewrite E. eexists. split; [reflexivity|]. change 255%Z with (Z.ones 8). rewrite Z.land_ones by lia. change (2 ^ 8)%Z with 256%Z.
      pose proof (Z.mod_pos_bound x 256 ltac:(lia)) as Hm.
      split; [cbn [length]; lia|]. split; [constructor; [unfold is_byte; lia|exact B]|].
      cbn [le_val]. rewrite C. pose proof (Z.div_mod x 256 ltac:(lia)). pose proof (Z.div_pos x 256 H0 ltac:(lia)).
      generalize dependent (x / 256)%Z. generalize dependent (x mod 256)%Z. intros. lia.
    + exists []. split; [reflexivity|]. split; [cbn; lia|]. split; [constructor|cbn; lia].
Qed.
Lemma pad_val l n : le_val (l ++ zeros n) = le_val l.
Proof. rewrite le_val_app, le_val_zeros. lia. Qed.
Lemma chunks_blocks bs rest : Forall (bytesn 32) bs -> (length rest < 32)%nat ->
  chunks 32 (concat bs ++ rest) = bs ++ match rest with [] => [] | _ => [rest] end.
Proof.
  intros H Hr. induction H as [|b bs [_ Hb] H IH].
  - cbn [concat app]. destruct rest as [|x t]; [reflexivity|]. rewrite chunks_cons by (try lia; discriminate).
    rewrite firstn_all2, skipn_all2 by lia. reflexivity.
  - cbn [concat app]. rewrite <- app_assoc, chunks_app, IH by (try assumption; lia). reflexivity.
Qed.

Lemma finish_ok S cm p h m : rep S cm p h m -> (8 * Z.of_nat (length m) <= LLONG_MAX)%Z ->
  exists cm', finish_hash cm h = Some (cm', digest S m) /\ rep S cm' p h m /\ frame p cm cm'.
Proof.
  intros (bs & rest & Hc & Em & Hrb & Hrl & Hl & Hf & Hrem) Hlen.
  destruct Hc as (Hp & (c & Ec & HS) & Hbs & HH & HHv & HSb & HSv & Hln).
  pose proof (concat_length32 bs Hbs) as Hcl.
  assert (Hm : length m = (32 * length bs + length rest)%nat) by (rewrite Em, app_length; lia).
  assert (Goal' : exists cm', finish_hash cm h = Some (cm', digest S m) /\ frame p cm cm' /\ exists c', cm' p = Some c' /\ has_sbox S c').
  2:{ destruct Goal' as (cm' & E & Fr & Hc'). exists cm'. split; [exact E|]. split; [|exact Fr].
      exists bs, rest. split; [|repeat split; assumption]. repeat split; try assumption. all: apply HH || apply HSb. }
  (* after padding *)
  assert (Pad : exists cm1 H1 S1,
    (if (0 <? h_left h)%nat then
      let buf := firstn (h_left h) (h_rem h) ++ zeros (32 - h_left h) in
      match step_at cm (h_cipher h) (h_H h) buf with
      | None => None
      | Some (cm, H) =>
          let fin_len := (h_len h + Z.of_nat (h_left h))%Z in
          if (LLONG_MAX <? fin_len)%Z then None
          else Some (cm, H, fst (add_blocks (h_S h) buf 0), fin_len)
      end
    else Some (cm, h_H h, h_S h, h_len h)) = Some (cm1, H1, S1, Z.of_nat (length m)) /\ frame p cm cm1 /\
    (exists c', cm1 p = Some c' /\ has_sbox S c') /\ bytesn 32 H1 /\ bytesn 32 S1 /\
    le_val H1 = fold_left (chi S) (map le_val (chunks 32 m)) 0 /\ le_val S1 = sum256 (map le_val (chunks 32 m))).
  { pose proof (chunks_blocks bs rest Hbs Hrl) as Ech. rewrite <- Em in Ech. rewrite Ech. clear Ech. rewrite Hl. destruct (Nat.ltb_spec 0 (length rest)) as [H0|H0].
    - rewrite Hf. cbv zeta.
      assert (Hbuf : bytesn 32 (rest ++ zeros (32 - length rest))) by (split; [apply bytes_app; auto using bytes_zeros|rewrite app_length, length_zeros; lia]).
      destruct (step_at_ok S cm p c (h_H h) _ Ec HS HH Hbuf) as (cm1 & H1 & E & Fr & Hc' & HH' & HHv').
      rewrite Hp, E. replace (LLONG_MAX <? h_len h + Z.of_nat (length rest))%Z with false by lia.
      destruct (add_blocks_ok (h_S h) (rest ++ zeros (32 - length rest)) 0) as [A1 A2]; [apply HSb|apply Hbuf|destruct HSb as [_ ->], Hbuf as [_ ->]; reflexivity|lia|].
      destruct HSb as [HSb HSl]. rewrite HSl in A1, A2. rewrite pad_val in *.
      eexists _, _, _. split; [do 2 f_equal; lia|]. split; [exact Fr|]. split; [exact Hc'|]. split; [exact HH'|]. split; [exact A1|].
      destruct rest as [|x t]; [cbn in H0; lia|]. rewrite map_app. cbn [map]. rewrite fold_left_app, sum256_app. cbn [fold_left].
      rewrite HHv', A2, HHv, HSv, N.add_0_r. split; reflexivity.
    - assert (rest = []) as -> by (apply list_len0; lia). rewrite app_nil_r. eexists _, _, _.
      split; [do 2 f_equal; cbn [length] in *; lia|]. split; [apply frame_refl|]. split; [exists c; auto|]. auto. }
  destruct Pad as (cm1 & H1 & S1 & E1 & F1 & (c1 & Ec1 & HS1) & HH1 & HSb1 & HHv1 & HSv1).
  unfold finish_hash. cbv zeta in E1 |- *. rewrite E1. clear E1.
  assert (Emp : exists cm2 H2, (if (Z.of_nat (length m) =? 0)%Z then step_at cm1 (h_cipher h) H1 (zeros 32) else Some (cm1, H1)) = Some (cm2, H2) /\
    frame p cm1 cm2 /\ (exists c', cm2 p = Some c' /\ has_sbox S c') /\ bytesn 32 H2 /\
    le_val H2 = fold_left (chi S) (msg_blocks m) 0 /\ le_val S1 = sum256 (msg_blocks m)).
  { unfold msg_blocks. destruct (Z.eqb_spec (Z.of_nat (length m)) 0) as [H0|H0].
    - assert (E0 : m = []) by (apply list_len0; lia). rewrite E0 in HHv1, HSv1. change (chunks 32 []) with (@nil (list N)) in *.
      destruct (step_at_ok S cm1 p c1 H1 (zeros 32) Ec1 HS1 HH1) as (cm2 & H2 & E & Fr & Hc' & HH' & HHv'); [split; [apply bytes_zeros|apply length_zeros]|].
      rewrite Hp, E. exists cm2, H2. rewrite E0. change (chunks 32 []) with (@nil (list N)). split; [reflexivity|]. split; [exact Fr|]. split; [exact Hc'|]. split; [exact HH'|].
      rewrite HHv', HHv1, HSv1, le_val_zeros. split; reflexivity.
    - exists cm1, H1. split; [reflexivity|]. split; [apply frame_refl|]. split; [exists c1; auto|]. split; [exact HH1|].
      destruct (chunks 32 m) as [|b t] eqn:Ech.
      + exfalso. pose proof (chunks_concat 32 m ltac:(lia)) as Hcc. rewrite Ech in Hcc. cbn in Hcc. subst m. rewrite <- Hcc in H0. cbn in H0. lia.
      + split; assumption. }
  destruct Emp as (cm2 & H2 & E2 & F2 & (c2 & Ec2 & HS2) & HH2 & HHv2 & HSv2). rewrite E2. clear E2.
  replace (LLONG_MAX <? Z.of_nat (length m) * 8)%Z with false by lia.
  destruct (len_bytes_ok 32 (Z.of_nat (length m) * 8)) as (l & El & Hll & Hlb & Hlv); [lia|unfold LLONG_MAX in Hlen; change (256 ^ Z.of_nat 32)%Z with (2 ^ 256)%Z; lia|].
  rewrite El.
  destruct (step_at_ok S cm2 p c2 H2 (l ++ zeros (32 - length l)) Ec2 HS2 HH2) as (cm3 & H3 & E3 & F3 & (c3 & Ec3 & HS3) & HH3 & HHv3).
  { split; [apply bytes_app; auto using bytes_zeros|rewrite app_length, length_zeros; lia]. }
  rewrite Hp, E3.
  destruct (step_at_ok S cm3 p c3 H3 S1 Ec3 HS3 HH3 HSb1) as (cm4 & H4 & E4 & F4 & Hc4 & HH4 & HHv4).
  rewrite E4. exists cm4. split; [|split; [eapply frame_trans; [eapply frame_trans; [eapply frame_trans|]|]; eassumption|exact Hc4]].
  do 2 f_equal. unfold digest, gost34311. cbv zeta. rewrite <- (le_bytes_le_val_n 32 H4 HH4). f_equal.
  assert (EL : (8 * N.of_nat (length m)) mod 2 ^ 256 = Z.to_N (Z.of_nat (length m) * 8)).
  { rewrite N.mod_small by (unfold LLONG_MAX in Hlen; lia). lia. }
  rewrite EL. unfold sum256 in HSv2. rewrite <- HSv2, <- HHv2, <- Hlv, <- (pad_val l (32 - length l)), <- HHv3. exact HHv4.
Qed.

Lemma finish_overflow S cm p h m : rep S cm p h m -> (LLONG_MAX < 8 * Z.of_nat (length m))%Z -> finish_hash cm h = None.
Proof.
  intros (bs & rest & Hc & Em & Hrb & Hrl & Hl & Hf & Hrem) Hlen.
  destruct Hc as (Hp & (c & Ec & HS) & Hbs & HH & HHv & HSb & HSv & Hln).
  pose proof (concat_length32 bs Hbs) as Hcl.
  assert (Hm : length m = (32 * length bs + length rest)%nat) by (rewrite Em, app_length; lia).
  unfold finish_hash. cbv zeta. rewrite Hl.
  match goal with |- context [match ?e with Some _ => _ | None => _ end] =>
    assert (Pad : e = None \/ exists cm1 H1 S1, e = Some (cm1, H1, S1, Z.of_nat (length m))) end.
  { destruct (Nat.ltb_spec 0 (length rest)) as [H0|H0].
    - destruct (step_at cm (h_cipher h) (h_H h) _) as [[cm1 H1]|]; [|left; reflexivity].
      destruct (LLONG_MAX <? h_len h + Z.of_nat (length rest))%Z; [left; reflexivity|right].
      eexists _, _, _. do 2 f_equal. lia.
    - right. eexists _, _, _. do 2 f_equal. lia. }
  destruct Pad as [-> | (cm1 & H1 & S1 & ->)]; [reflexivity|].
  destruct (if (Z.of_nat (length m) =? 0)%Z then _ else _) as [[cm2 H2]|]; [|reflexivity].
  replace (LLONG_MAX <? Z.of_nat (length m) * 8)%Z with true by lia. reflexivity.
Qed.

(** ** library interface *)
Lemma init_rep cm p junk b : sb_wf b ->
  let r := init_gost_hash_ctx cm p junk b in rep (sb_fun b) (fst r) p (snd r) [].
Proof.
  intros Hb r. subst r. unfold init_gost_hash_ctx. cbn [fst snd]. exists [], [].
  split; [|repeat split; try constructor; try reflexivity; cbn; lia].
  unfold core. cbn [h_cipher h_H h_S h_len]. split; [reflexivity|].
  split; [exists (gost_init junk (Some b)); split; [apply cset_same|apply kboxinit_has_sbox, Hb]|].
  split; [constructor|]. split; [split; [apply bytes_zeros|apply length_zeros]|]. split; [rewrite le_val_zeros; reflexivity|].
  split; [split; [apply bytes_zeros|apply length_zeros]|]. split; [rewrite le_val_zeros|]; reflexivity.
Qed.
Lemma start_rep S cm p h m : rep S cm p h m -> fst (start_hash h) = 1%Z /\ rep S cm p (snd (start_hash h)) [].
Proof.
  intros (bs & rest & (Hp & Hc & _) & _ & _ & _ & _ & _ & Hrem). unfold start_hash. rewrite Hp. split; [reflexivity|].
  exists [], []. cbn [snd]. split; [|repeat split; try constructor; try reflexivity; try (cbn; lia); exact Hrem].
  unfold core. cbn [h_cipher h_H h_S h_len]. split; [reflexivity|]. split; [exact Hc|].
  split; [constructor|]. split; [split; [apply bytes_zeros|apply length_zeros]|]. split; [rewrite le_val_zeros; reflexivity|].
  split; [split; [apply bytes_zeros|apply length_zeros]|]. split; [rewrite le_val_zeros|]; reflexivity.
Qed.
Lemma blocks_ok S p ds : forall cm h m, rep S cm p h m -> Forall bytes ds ->
  (Z.of_nat (length m + length (concat ds)) <= LLONG_MAX)%Z ->
  exists cm' h', hash_blocks cm h ds = Some (cm', h') /\ rep S cm' p h' (m ++ concat ds) /\ frame p cm cm'.
Proof.
  induction ds as [|d ds IH]; intros cm h m Hr Hd Hlen.
  - exists cm, h. cbn [concat]. rewrite app_nil_r. repeat split; auto using frame_refl.
  - inversion Hd as [|? ? Hd1 Hd2]; subst. cbn [concat] in *. rewrite app_length in Hlen. cbn [hash_blocks].
    destruct (hash_block_ok S cm p h m d Hr Hd1 ltac:(lia)) as (cm1 & h1 & E & R1 & F1). rewrite E.
    destruct (IH cm1 h1 (m ++ d) R1 Hd2) as (cm2 & h2 & E2 & R2 & F2); [rewrite app_length; lia|].
    exists cm2, h2. rewrite app_assoc. repeat split; auto. eapply frame_trans; eassumption.
Qed.
