(** Lemmas about Model_Params. *)
From Verif Require Import Lib Proof_Gost89.
From Verif Require Export Model_Params Spec_Params.

(** ** S-box packing *)
Lemma land_0f x : N.land 0x0f x = x mod 16.
Proof. rewrite N.land_comm. apply land_15. Qed.
Lemma land_0f' x : N.land x 0x0f = x mod 16.
Proof. apply land_15. Qed.
Lemma unpack_pack_byte b : is_byte b ->
  w8 (N.lor (N.land (N.shiftl (N.land 0x0f (N.shiftr b 4)) 4) 0xf0) (N.land (N.land 0x0f b) 0x0f)) = b.
Proof.
  intros H.
  assert (Hs : forallb (fun n => let b := N.of_nat n in
     w8 (N.lor (N.land (N.shiftl (N.land 0x0f (N.shiftr b 4)) 4) 0xf0) (N.land (N.land 0x0f b) 0x0f)) =? b) (seq 0 256) = true) by (vm_compute; reflexivity).
  rewrite forallb_forall in Hs. specialize (Hs (N.to_nat b)). cbv zeta in Hs.
  rewrite N2Nat.id in Hs. apply N.eqb_eq. apply Hs. apply in_seq. unfold is_byte in H. lia.
Qed.
Lemma pack_unpack_pair x y : x < 16 -> y < 16 ->
  let b := w8 (N.lor (N.land (N.shiftl x 4) 0xf0) (N.land y 0x0f)) in
  N.land 0x0f (N.shiftr b 4) = x /\ N.land 0x0f b = y.
Proof.
  intros Hx Hy b.
  assert (Hs : forallb (fun n => forallb (fun k => let x := N.of_nat n in let y := N.of_nat k in
     let b := w8 (N.lor (N.land (N.shiftl x 4) 0xf0) (N.land y 0x0f)) in
     (N.land 0x0f (N.shiftr b 4) =? x) && (N.land 0x0f b =? y)) (seq 0 16)) (seq 0 16) = true) by (vm_compute; reflexivity).
  rewrite forallb_forall in Hs. specialize (Hs (N.to_nat x) ltac:(apply in_seq; lia)).
  rewrite forallb_forall in Hs. specialize (Hs (N.to_nat y) ltac:(apply in_seq; lia)).
  cbv zeta in Hs. rewrite !N2Nat.id in Hs. apply andb_true_iff in Hs. rewrite !N.eqb_eq in Hs. exact Hs.
Qed.

Lemma nth_skipn_add (p : list N) off i d : nth (off + i) p d = nth i (skipn off p) d.
Proof.
  revert p; induction off as [|off IH]; intros p; [reflexivity|].
  destruct p; [cbn; destruct i; reflexivity|]. apply IH.
Qed.
Lemma pack_row_unpack p off : bytes p -> (off + 8 <= length p)%nat ->
  pack_row (unpack_row p off) = firstn 8 (skipn off p).
Proof.
  intros Hp Hl. unfold unpack_row. cbn [seq flat_map app].
  rewrite !nth_skipn_add. 
  assert (Hs : bytes (skipn off p)) by (apply bytes_skipn, Hp).
  assert (Hsl : (8 <= length (skipn off p))%nat) by (rewrite skipn_length; lia).
  destruct (skipn off p) as [|b0 [|b1 [|b2 [|b3 [|b4 [|b5 [|b6 [|b7 t]]]]]]]]; cbn [length] in Hsl; try lia.
  unfold bytes in Hs. repeat match goal with H : Forall _ (_ :: _) |- _ => inversion H; clear H; subst end.
  unfold pack_row. cbn [seq map Nat.mul Nat.add nth firstn].
  rewrite !unpack_pack_byte by assumption. reflexivity.
Qed.
Lemma pack_unpack p : bytesn 64 p -> pack_sbox (unpack_sbox p) = p.
Proof.
  intros [Hp Hl]. unfold pack_sbox, unpack_sbox. cbn [k1 k2 k3 k4 k5 k6 k7 k8].
  rewrite !pack_row_unpack by (assumption || lia).
  explode p. reflexivity.
Qed.

Lemma unpack_row_app a b off : length a = off -> unpack_row (a ++ b) off = unpack_row b 0.
Proof.
  intros Ha. unfold unpack_row. cbn [seq flat_map app].
  rewrite !nth_skipn_add. rewrite skipn_app, skipn_all2, Ha, Nat.sub_diag by lia. reflexivity.
Qed.
Lemma unpack_pack_row r t : row_wf r -> unpack_row (pack_row r ++ t) 0 = r.
Proof.
  intros [Hl Hr]. explode r. repeat match goal with H : Forall _ (_ :: _) |- _ => inversion H; clear H; subst end.
  unfold unpack_row, pack_row. cbn [seq map flat_map app nth Nat.mul Nat.add].
  repeat match goal with |- context [N.land 15 (N.shiftr (w8 (N.lor (N.land (N.shiftl ?x 4) 240) (N.land ?y 15))) 4)] =>
    let Ha := fresh in let Hb := fresh in
    destruct (pack_unpack_pair x y ltac:(assumption) ltac:(assumption)) as [Ha Hb]; cbv zeta in Ha, Hb; rewrite Ha, Hb; clear Ha Hb end.
  reflexivity.
Qed.
Lemma pack_row_length r : length (pack_row r) = 8%nat.
Proof. reflexivity. Qed.

Lemma unpack_pack b : sb_wf b -> unpack_sbox (pack_sbox b) = b.
Proof.
  intros (H8 & H7 & H6 & H5 & H4 & H3 & H2 & H1). unfold unpack_sbox, pack_sbox.
  destruct b as [r8 r7 r6 r5 r4 r3 r2 r1]. cbn [k1 k2 k3 k4 k5 k6 k7 k8] in *.
  pose proof (app_nil_r (pack_row r8)) as Hn.
  f_equal; [rewrite <- Hn| | | | | | |];
  repeat match goal with
    | |- unpack_row (pack_row _ ++ _) 0 = _ => apply unpack_pack_row; assumption
    | |- unpack_row (?a ++ ?b) ?o = ?r =>
        let o' := eval vm_compute in (o - 8)%nat in
        transitivity (unpack_row b o');
        [unfold unpack_row; cbn [seq flat_map]; rewrite !app_nth2 by (rewrite pack_row_length; lia);
         rewrite !pack_row_length; reflexivity|] end.
Qed.

Lemma lset_length l i v : length (lset l i v) = length l.
Proof. revert i; induction l as [|x t IH]; intros [|i]; cbn [lset length]; auto. Qed.
Lemma nth_lset l i v j d : (i < length l)%nat -> nth j (lset l i v) d = if Nat.eq_dec j i then v else nth j l d.
Proof.
  revert i j; induction l as [|x t IH]; intros [|i] [|j] Hi; cbn [lset length nth] in *; try lia; auto.
  rewrite IH by lia. destruct (Nat.eq_dec j i), (Nat.eq_dec (S j) (S i)); auto; lia.
Qed.

Lemma fold_lset (g : nat -> nat) (r : list N) s : forall l, length l = length r ->
  (forall i, In i s -> (g i < length r)%nat) ->
  (forall j, (j < length r)%nat -> (exists i, In i s /\ g i = j) \/ nth j l 0 = nth j r 0) ->
  fold_left (fun l i => lset l (g i) (nth (g i) r 0)) s l = r.
Proof.
  induction s as [|i s IH]; intros l Hl Hg Hc; cbn [fold_left].
  - apply nth_ext with (d := 0) (d' := 0); [assumption|]. intros j Hj. rewrite Hl in Hj.
    destruct (Hc j Hj) as [(i & [] & _)|H]; exact H.
  - apply IH.
    + now rewrite lset_length.
    + intros k Hk. apply Hg. now right.
    + intros j Hj. assert (Hgi : (g i < length l)%nat) by (rewrite Hl; apply Hg; now left).
      destruct (Hc j Hj) as [(k & [<-|Hk] & Hkj)|H].
      * right. rewrite nth_lset by assumption. destruct (Nat.eq_dec j (g i)); congruence.
      * left. exists k. auto.
      * right. rewrite nth_lset by assumption. destruct (Nat.eq_dec j (g i)); congruence.
Qed.

Lemma fold_ext_in {A B} (f g : A -> B -> A) s : (forall a x, In x s -> f a x = g a x) ->
  forall a, fold_left f s a = fold_left g s a.
Proof.
  induction s as [|x s IH]; intros H a; [reflexivity|]. cbn [fold_left].
  rewrite H by now left. apply IH. intros. apply H. now right.
Qed.

Lemma row_nth_lt r i : row_wf r -> nth i r 0 < 16.
Proof.
  intros [Hl Hr]. destruct (Nat.lt_ge_cases i 16) as [H|H].
  - rewrite Forall_forall in Hr. apply Hr. apply nth_In. lia.
  - rewrite nth_overflow by lia. lia.
Qed.

Definition hi_of (i : nat) : nat := N.to_nat (N.shiftr (N.of_nat i) 4).
Definition lo_of (i : nat) : nat := N.to_nat (N.land (N.of_nat i) 15).
Lemma ktab_nth hi lo sh i : row_wf hi -> row_wf lo -> sh <= 24 -> (i < 256)%nat ->
  nth i (ktab hi lo sh) 0 = (nth (hi_of i) hi 0 * 16 + nth (lo_of i) lo 0) * 2 ^ sh.
Proof.
  intros Hh Hl Hs Hi. replace i with (N.to_nat (N.of_nat i)) at 1 by lia.
  change (nth (N.to_nat (N.of_nat i)) (ktab hi lo sh) 0) with (at_ (ktab hi lo sh) (N.of_nat i)).
  rewrite <- (N.mod_small (N.of_nat i) 256) by lia. rewrite <- land_255.
  rewrite at_ktab_val by assumption. unfold at_, hi_of, lo_of.
  rewrite land_15, N.shiftr_div_pow2. change (2 ^ 4) with 16.
  rewrite (N.mod_small (N.of_nat i / 16) 16) by lia. reflexivity.
Qed.
Lemma ktab_hi hi lo sh i : row_wf hi -> row_wf lo -> sh <= 24 -> (i < 256)%nat ->
  N.land (N.shiftr (nth i (ktab hi lo sh) 0) (sh + 4)) 0xf = nth (hi_of i) hi 0.
Proof.
  intros Hh Hl Hs Hi. rewrite ktab_nth by assumption. change 0xf with 15. rewrite land_15, N.shiftr_div_pow2.
  pose proof (row_nth_lt hi (hi_of i) Hh). pose proof (row_nth_lt lo (lo_of i) Hl).
  rewrite N.pow_add_r, <- N.div_div by (try apply N.pow_nonzero; lia).
  rewrite N.div_mul by (apply N.pow_nonzero; lia). change (2 ^ 4) with 16. lia.
Qed.
Lemma ktab_lo hi lo sh i : row_wf hi -> row_wf lo -> sh <= 24 -> (i < 256)%nat ->
  N.land (N.shiftr (nth i (ktab hi lo sh) 0) sh) 0xf = nth (lo_of i) lo 0.
Proof.
  intros Hh Hl Hs Hi. rewrite ktab_nth by assumption. change 0xf with 15. rewrite land_15, N.shiftr_div_pow2.
  pose proof (row_nth_lt hi (hi_of i) Hh). pose proof (row_nth_lt lo (lo_of i) Hl).
  rewrite N.div_mul by (apply N.pow_nonzero; lia). lia.
Qed.

Definition copy_step (b : subst_block) (a : subst_block) (i : nat) : subst_block :=
  SB (lset (k8 a) (hi_of i) (nth (hi_of i) (k8 b) 0)) (lset (k7 a) (lo_of i) (nth (lo_of i) (k7 b) 0))
     (lset (k6 a) (hi_of i) (nth (hi_of i) (k6 b) 0)) (lset (k5 a) (lo_of i) (nth (lo_of i) (k5 b) 0))
     (lset (k4 a) (hi_of i) (nth (hi_of i) (k4 b) 0)) (lset (k3 a) (lo_of i) (nth (lo_of i) (k3 b) 0))
     (lset (k2 a) (hi_of i) (nth (hi_of i) (k2 b) 0)) (lset (k1 a) (lo_of i) (nth (lo_of i) (k1 b) 0)).
Lemma copy_fold b s : forall a, fold_left (copy_step b) s a =
  SB (fold_left (fun l i => lset l (hi_of i) (nth (hi_of i) (k8 b) 0)) s (k8 a))
     (fold_left (fun l i => lset l (lo_of i) (nth (lo_of i) (k7 b) 0)) s (k7 a))
     (fold_left (fun l i => lset l (hi_of i) (nth (hi_of i) (k6 b) 0)) s (k6 a))
     (fold_left (fun l i => lset l (lo_of i) (nth (lo_of i) (k5 b) 0)) s (k5 a))
     (fold_left (fun l i => lset l (hi_of i) (nth (hi_of i) (k4 b) 0)) s (k4 a))
     (fold_left (fun l i => lset l (lo_of i) (nth (lo_of i) (k3 b) 0)) s (k3 a))
     (fold_left (fun l i => lset l (hi_of i) (nth (hi_of i) (k2 b) 0)) s (k2 a))
     (fold_left (fun l i => lset l (lo_of i) (nth (lo_of i) (k1 b) 0)) s (k1 a)).
Proof. induction s as [|i s IH]; intros a; [destruct a; reflexivity|]. cbn [fold_left]. rewrite IH. reflexivity. Qed.

Lemma hi_lt i : (i < 256)%nat -> (hi_of i < 16)%nat.
Proof. intros H. unfold hi_of. rewrite N.shiftr_div_pow2. change (2 ^ 4) with 16. lia. Qed.
Lemma lo_lt i : (lo_of i < 16)%nat.
Proof. unfold lo_of. rewrite land_15. lia. Qed.
Lemma hi_cover j : (j < 16)%nat -> exists i, In i (seq 0 256) /\ hi_of i = j.
Proof.
  intros H. exists (16 * j)%nat. split; [apply in_seq; lia|]. unfold hi_of. rewrite N.shiftr_div_pow2.
  change (2 ^ 4) with 16. lia.
Qed.
Lemma lo_cover j : (j < 16)%nat -> exists i, In i (seq 0 256) /\ lo_of i = j.
Proof. intros H. exists j. split; [apply in_seq; lia|]. unfold lo_of. rewrite land_15. lia. Qed.

Lemma get_sbox_kbox c b a : sb_wf b -> rows16 a -> dstu_get_sbox (kboxinit c b) a = b.
Proof.
  intros (H8 & H7 & H6 & H5 & H4 & H3 & H2 & H1) (A8 & A7 & A6 & A5 & A4 & A3 & A2 & A1).
  unfold dstu_get_sbox. rewrite (fold_ext_in _ (copy_step b)).
  2:{ intros a' i Hi. apply in_seq in Hi. assert (Hi' : (i < 256)%nat) by lia.
      unfold get_sbox_step, copy_step, kboxinit. cbn [k87 k65 k43 k21].
      fold (hi_of i) (lo_of i).
      pose proof (ktab_hi _ _ 24 i H8 H7 ltac:(lia) Hi') as E8. pose proof (ktab_lo _ _ 24 i H8 H7 ltac:(lia) Hi') as E7.
      pose proof (ktab_hi _ _ 16 i H6 H5 ltac:(lia) Hi') as E6. pose proof (ktab_lo _ _ 16 i H6 H5 ltac:(lia) Hi') as E5.
      pose proof (ktab_hi _ _ 8 i H4 H3 ltac:(lia) Hi') as E4. pose proof (ktab_lo _ _ 8 i H4 H3 ltac:(lia) Hi') as E3.
      pose proof (ktab_hi _ _ 0 i H2 H1 ltac:(lia) Hi') as E2. pose proof (ktab_lo _ _ 0 i H2 H1 ltac:(lia) Hi') as E1.
      rewrite N.shiftr_0_r in E1.
      change (24 + 4) with 28 in E8. change (16 + 4) with 20 in E6. change (8 + 4) with 12 in E4. change (0 + 4) with 4 in E2.
      rewrite E8, E7, E6, E5, E4, E3, E2, E1. reflexivity. }
  rewrite copy_fold. destruct b as [r8 r7 r6 r5 r4 r3 r2 r1]. cbn [k1 k2 k3 k4 k5 k6 k7 k8] in *.
  unfold row_wf in *.
  f_equal;
    (apply fold_lset; [lia
      |intros i Hi; apply in_seq in Hi; first [pose proof (hi_lt i ltac:(lia)); lia | pose proof (lo_lt i); lia]
      |intros j Hj; left; first [apply hi_cover; lia | apply lo_cover; lia]]).
Qed.

Lemma get_sbox_tables c c' a : k87 c = k87 c' -> k65 c = k65 c' -> k43 c = k43 c' -> k21 c = k21 c' ->
  dstu_get_sbox c a = dstu_get_sbox c' a.
Proof.
  intros E1 E2 E3 E4. unfold dstu_get_sbox. apply fold_ext_in. intros a' i _. unfold get_sbox_step.
  rewrite E1, E2, E3, E4. reflexivity.
Qed.
Lemma get_sbox_api c0 b rnd k a : sb_wf b -> rows16 a ->
  dstu_get_sbox (gost_key rnd (gost_init c0 (Some b)) k) a = b.
Proof.
  intros Hb Ha. rewrite (get_sbox_tables _ (kboxinit c0 b)) by reflexivity. apply get_sbox_kbox; assumption.
Qed.

Lemma unpack_row_wf p off : row_wf (unpack_row p off).
Proof.
  split; [reflexivity|]. unfold unpack_row. cbn [seq flat_map app]. rewrite !land_0f.
  repeat constructor; lia.
Qed.
Lemma unpack_wf p : sb_wf (unpack_sbox p).
Proof. repeat split; try apply unpack_row_wf. Qed.
Lemma pack_bytesn b : bytesn 64 (pack_sbox b).
Proof.
  split; [|reflexivity]. unfold pack_sbox. repeat apply bytes_app; unfold pack_row;
  apply Forall_forall; intros x Hx; apply in_map_iff in Hx; destruct Hx as (n & <- & _); unfold is_byte, w8; lia.
Qed.
(** ** Reversal *)
Lemma rev_loop_ok k : forall m a size i, 2 * (i + N.of_nat k) <= size <= 2 * (i + N.of_nat k) + 1 ->
  forall x, reverse_loop k m a size i x =
    if (a + i <=? x) && (x <? a + size - i) then m (a + size - 1 - (x - a)) else m x.
Proof.
  induction k as [|k IH]; intros m a size i Hi x; cbn [reverse_loop].
  - destruct ((a + i <=? x) && (x <? a + size - i)) eqn:E; [|reflexivity]. f_equal. lia.
  - rewrite IH by lia. unfold upd.
    destruct (N.eq_dec x (a + (size - 1 - i))) as [E1|E1].
    + rewrite (proj2 (N.eqb_eq _ _) E1).
      replace ((a + (i + 1) <=? x) && (x <? a + size - (i + 1))) with false by lia.
      replace ((a + i <=? x) && (x <? a + size - i)) with true by lia.
      f_equal. lia.
    + rewrite (proj2 (N.eqb_neq _ _) E1). destruct (N.eq_dec x (a + i)) as [E2|E2].
      * rewrite (proj2 (N.eqb_eq _ _) E2).
        replace ((a + (i + 1) <=? x) && (x <? a + size - (i + 1))) with false by lia.
        replace ((a + i <=? x) && (x <? a + size - i)) with true by lia.
        f_equal. lia.
      * rewrite (proj2 (N.eqb_neq _ _) E2).
        replace ((a + (i + 1) <=? x) && (x <? a + size - (i + 1))) with ((a + i <=? x) && (x <? a + size - i)) by lia.
        destruct ((a + i <=? x) && (x <? a + size - i)) eqn:E; [|reflexivity].
        replace (a + size - 1 - (x - a) =? a + (size - 1 - i)) with false by lia.
        replace (a + size - 1 - (x - a) =? a + i) with false by lia. reflexivity.
Qed.
Lemma quot2 size : (0 <= size)%Z -> 2 * (0 + N.of_nat (Z.to_nat (Z.quot size 2))) <= Z.to_N size <= 2 * (0 + N.of_nat (Z.to_nat (Z.quot size 2))) + 1.
Proof. intros H. rewrite Z.quot_div_nonneg by lia. lia. Qed.
Lemma reverse_bytes_at m a (size : Z) x : (0 <= size)%Z ->
  reverse_bytes m a size x =
    if (a <=? x) && (x <? a + Z.to_N size) then m (a + Z.to_N size - 1 - (x - a)) else m x.
Proof.
  intros Hs. unfold reverse_bytes. rewrite rev_loop_ok by (apply quot2, Hs).
  rewrite N.add_0_r, N.sub_0_r. reflexivity.
Qed.
Lemma rd_at m a n : rd m a n = map (fun i => m (a + N.of_nat i)) (seq 0 n).
Proof.
  apply nth_ext with (d := 0) (d' := 0); [now rewrite rd_length, map_length, seq_length|].
  intros i Hi. rewrite rd_length in Hi. rewrite rd_nth by assumption. now rewrite nth_map_seq by assumption.
Qed.
Lemma rd_rev m m' a b n : (forall i, (i < n)%nat -> m' (a + N.of_nat i) = m (b + N.of_nat (n - 1 - i))) ->
  rd m' a n = rev (rd m b n).
Proof.
  intros H. apply nth_ext with (d := 0) (d' := 0); [now rewrite rev_length, !rd_length|].
  intros i Hi. rewrite rd_length in Hi. rewrite rd_nth by assumption.
  rewrite rev_nth, rd_length by (rewrite rd_length; assumption).
  rewrite rd_nth by lia. rewrite H by assumption. f_equal. lia.
Qed.
Lemma reverse_bytes_ok m a (size : Z) : let n := Z.to_nat size in
  rd (reverse_bytes m a size) a n = rev (rd m a n) /\
  (forall x, x < a \/ a + N.of_nat n <= x -> reverse_bytes m a size x = m x).
Proof.
  intros n. destruct (Z.lt_ge_cases size 0) as [Hn|Hn].
  - assert (n = 0%nat) as -> by (unfold n; lia). split; [reflexivity|]. intros x _.
    unfold reverse_bytes. replace (Z.to_nat (Z.quot size 2)) with 0%nat; [reflexivity|].
    assert (Z.quot size 2 <= 0)%Z; [|lia]. apply Z.quot_le_upper_bound; lia.
  - split.
    + apply rd_rev. intros i Hi. rewrite reverse_bytes_at by assumption.
      destruct ((a <=? a + N.of_nat i) && (a + N.of_nat i <? a + Z.to_N size)) eqn:E; [|unfold n in *; lia].
      f_equal. unfold n in *. lia.
    + intros x Hx. rewrite reverse_bytes_at by assumption.
      destruct ((a <=? x) && (x <? a + Z.to_N size)) eqn:E; [unfold n in *; lia|reflexivity].
Qed.
Lemma reverse_twice m a size x : reverse_bytes (reverse_bytes m a size) a size x = m x.
Proof.
  destruct (Z.lt_ge_cases size 0) as [Hn|Hn].
  - assert (Z.to_nat (Z.quot size 2) = 0%nat) as E
      by (assert (Z.quot size 2 <= 0)%Z by (apply Z.quot_le_upper_bound; lia); lia).
    unfold reverse_bytes. rewrite E. reflexivity.
  - rewrite reverse_bytes_at by assumption. set (n := Z.to_N size).
    destruct ((a <=? x) && (x <? a + n)) eqn:E; rewrite reverse_bytes_at by assumption; fold n.
    + replace ((a <=? a + n - 1 - (x - a)) && (a + n - 1 - (x - a) <? a + n)) with true by (clearbody n; clear - E; lia).
      f_equal. clearbody n. clear - E. lia.
    + rewrite E. reflexivity.
Qed.

Lemma rev_copy_loop_ok k : forall m dst src size i, i + N.of_nat k = size ->
  (dst + size <= src \/ src + size <= dst) ->
  forall x, reverse_copy_loop k m dst src size i x =
    if (dst + i <=? x) && (x <? dst + size) then m (src + (size - 1 - (x - dst))) else m x.
Proof.
  induction k as [|k IH]; intros m dst src size i Hi Hd x; cbn [reverse_copy_loop].
  - destruct ((dst + i <=? x) && (x <? dst + size)) eqn:E; [lia|reflexivity].
  - rewrite IH by (assumption || lia). unfold upd.
    destruct ((dst + (i + 1) <=? x) && (x <? dst + size)) eqn:E1;
    destruct ((dst + i <=? x) && (x <? dst + size)) eqn:E2; try lia;
    repeat match goal with |- context [if ?c then _ else _] => destruct c eqn:? end; try lia; try reflexivity; f_equal; lia.
Qed.
Lemma reverse_bytes_copy_ok m dst src (size : Z) : let n := Z.to_nat size in
  (dst + N.of_nat n <= src \/ src + N.of_nat n <= dst) ->
  rd (reverse_bytes_copy m dst src size) dst n = rev (rd m src n) /\
  (forall x, x < dst \/ dst + N.of_nat n <= x -> reverse_bytes_copy m dst src size x = m x).
Proof.
  intros n Hd. unfold n in *. split.
  - apply rd_rev. intros i Hi. unfold reverse_bytes_copy. rewrite rev_copy_loop_ok by lia.
    destruct ((dst + 0 <=? dst + N.of_nat i) && (dst + N.of_nat i <? dst + Z.to_N size)) eqn:E; [|lia].
    f_equal. lia.
  - intros x Hx. unfold reverse_bytes_copy. rewrite rev_copy_loop_ok by lia.
    destruct ((dst + 0 <=? x) && (x <? dst + Z.to_N size)) eqn:E; [lia|reflexivity].
Qed.

(** ** bn_encode *)
Lemma size_bound x : x < 2 ^ N.size x.
Proof. apply N.size_gt. Qed.
Lemma num_bytes_bound x : x < 256 ^ N.of_nat (BN_num_bytes x).
Proof.
  unfold BN_num_bytes. rewrite N2Nat.id. change 256 with (2 ^ 8). rewrite <- N.pow_mul_r.
  eapply N.lt_le_trans; [apply size_bound|]. apply N.pow_le_mono_r; lia.
Qed.
Lemma num_bytes_le x n : x < 256 ^ N.of_nat n -> (BN_num_bytes x <= n)%nat.
Proof.
  intros H. unfold BN_num_bytes. destruct (N.eq_dec x 0) as [->|Hx]; [cbn; lia|].
  change 256 with (2 ^ 8) in H. rewrite <- N.pow_mul_r in H.
  assert (N.size x <= 8 * N.of_nat n); [|lia].
  rewrite N.size_log2 by assumption. apply N.le_succ_l. apply N.log2_lt_pow2; [lia|assumption].
Qed.
Lemma num_bytes_ge x n : 256 ^ N.of_nat n <= x -> (n < BN_num_bytes x)%nat.
Proof.
  intros H. apply Nat.nle_gt. intros Hc. pose proof (num_bytes_bound x) as Hb.
  assert (256 ^ N.of_nat (BN_num_bytes x) <= 256 ^ N.of_nat n) by (apply N.pow_le_mono_r; lia). lia.
Qed.
Lemma num_bytes_0 x : BN_num_bytes x = 0%nat <-> x = 0.
Proof.
  split; [|intros ->; reflexivity]. intros H. pose proof (num_bytes_bound x) as Hb. rewrite H in Hb.
  change (256 ^ N.of_nat 0) with 1 in Hb. lia.
Qed.
Lemma bn2bin_bytes x : bytes (BN_bn2bin x).
Proof. apply be_bytes_bytes. Qed.
Lemma bn2bin_val x : be_val (BN_bn2bin x) = x.
Proof. apply be_val_be_bytes, num_bytes_bound. Qed.
Lemma be_val_zeros_app n l : be_val (zeros n ++ l) = be_val l.
Proof.
  rewrite be_val_app. unfold be_val at 1. unfold zeros.
  replace (rev (repeat 0 n)) with (zeros n).
  - rewrite le_val_zeros. lia.
  - unfold zeros. induction n as [|n IH]; [reflexivity|]. cbn [repeat rev]. rewrite <- IH.
    clear IH. induction n as [|n IH]; [reflexivity|]. cbn [repeat app]. now rewrite <- IH.
Qed.
(** [bn_encode] with a buffer of [n] bytes. *)
Lemma bn_encode_ok x n :
  (x < 256 ^ N.of_nat n -> exists buf, bn_encode x (Z.of_nat n) = (Z.of_nat (BN_num_bytes x), Some buf) /\
      bytesn n buf /\ be_val buf = x) /\
  (256 ^ N.of_nat n <= x -> bn_encode x (Z.of_nat n) = (0%Z, None)).
Proof.
  split; intros H; unfold bn_encode.
  - pose proof (num_bytes_le _ _ H) as Hle.
    destruct (Z.ltb_spec (Z.of_nat n) (Z.of_nat (BN_num_bytes x))); [lia|].
    eexists. split; [reflexivity|]. split.
    + split; [apply bytes_app; [apply bytes_zeros|apply bn2bin_bytes]|].
      rewrite app_length, length_zeros. unfold BN_bn2bin. rewrite be_bytes_length. lia.
    + rewrite be_val_zeros_app. apply bn2bin_val.
  - pose proof (num_bytes_ge _ _ H) as Hgt.
    destruct (Z.ltb_spec (Z.of_nat n) (Z.of_nat (BN_num_bytes x))); [reflexivity|lia].
Qed.

Lemma unpack_entry p row e : bytesn 64 p -> (row < 8)%nat -> (e < 16)%nat ->
  nth e (sb_row (unpack_sbox p) row) 0 = sbox_entry p row e.
Proof.
  intros [Hp Hl] Hr He.
  assert (Hn : sb_row (unpack_sbox p) row = unpack_row p (8 * row)).
  { do 8 (destruct row as [|row]; [reflexivity|]). lia. }
  rewrite Hn. unfold sbox_entry.
  assert (Hb : nth (8 * row + e / 2) p 0 < 256).
  { unfold bytes in Hp. rewrite Forall_forall in Hp. apply Hp. apply nth_In. lia. }
  assert (Hd : forall e, (e < 16)%nat -> nth e (unpack_row p (8 * row)) 0 =
     if Nat.even e then N.land 0x0f (N.shiftr (nth (8 * row + e / 2) p 0) 4) else N.land 0x0f (nth (8 * row + e / 2) p 0)).
  { clear. intros e He. unfold unpack_row. cbn [seq flat_map app].
    do 16 (destruct e as [|e]; [reflexivity|]). lia. }
  rewrite Hd by assumption. rewrite !land_0f, N.shiftr_div_pow2. change (2 ^ 4) with 16.
  destruct (Nat.even e); [|reflexivity]. apply N.mod_small. lia.
Qed.

Lemma is_default_ok s : is_default_sbox s = true <-> s = default_sbox.
Proof. unfold is_default_sbox. destruct (list_eq_dec N.eq_dec default_sbox s); split; congruence. Qed.

(** Success of the encoder (non-zero return) *)
Lemma bn_encode_success x n : x <> 0 ->
  (fst (bn_encode x (Z.of_nat n)) <> 0%Z <-> x < 256 ^ N.of_nat n) /\
  (forall buf, snd (bn_encode x (Z.of_nat n)) = Some buf -> bytesn n buf /\ be_val buf = x) /\
  (fst (bn_encode x (Z.of_nat n)) = 0%Z -> snd (bn_encode x (Z.of_nat n)) = None) /\
  (fst (bn_encode x (Z.of_nat n)) <> 0%Z -> snd (bn_encode x (Z.of_nat n)) <> None).
Proof.
  intros Hx. destruct (bn_encode_ok x n) as [H1 H2].
  pose proof (num_bytes_0 x) as H0.
  destruct (N.lt_ge_cases x (256 ^ N.of_nat n)) as [H|H].
  - destruct (H1 H) as (buf & -> & Hb & Hv). cbn [fst snd]. split; [split; [auto|lia]|].
    split; [intros b [= <-]; auto|]. split; [lia|discriminate].
  - rewrite (H2 H). cbn [fst snd]. split; [split; [congruence|lia]|]. split; [discriminate|]. split; congruence.
Qed.
Lemma bn_encode_negative x size : (size < 0)%Z -> bn_encode x size = (0%Z, None).
Proof. intros H. unfold bn_encode. destruct (Z.ltb_spec size (Z.of_nat (BN_num_bytes x))); [reflexivity|lia]. Qed.
Lemma bn_encode_zero_fails n : bn_encode 0 (Z.of_nat n) = (0%Z, Some (zeros n)).
Proof.
  unfold bn_encode. change (BN_num_bytes 0) with 0%nat. destruct (Z.ltb_spec (Z.of_nat n) (Z.of_nat 0)); [lia|].
  change (BN_bn2bin 0) with (@nil N). rewrite app_nil_r. f_equal. f_equal. f_equal. lia.
Qed.

(** ** The default table *)
Lemma default_is_DKE1 : forall row e, (row < 8)%nat -> (e < 16)%nat ->
  nth e (sb_row (unpack_sbox default_sbox) row) 0 = nth e (nth row DKE1 []) 0.
Proof.
  assert (H : forallb (fun row => forallb (fun e => nth e (sb_row (unpack_sbox default_sbox) row) 0 =? nth e (nth row DKE1 []) 0) (seq 0 16)) (seq 0 8) = true)
    by (vm_compute; reflexivity).
  intros row e Hr He. rewrite forallb_forall in H. specialize (H row ltac:(apply in_seq; lia)). rewrite forallb_forall in H.
  specialize (H e ltac:(apply in_seq; lia)). apply N.eqb_eq in H. exact H.
Qed.
Definition inv_ok (row : nat) (v : N) : bool :=
  (length (filter (fun e => N.eqb (sbox_entry default_sbox row e) v) (seq 0 16)) =? 1)%nat.
Lemma default_rows_permutation : forall row v, (row < 8)%nat -> v < 16 ->
  exists e, (e < 16)%nat /\ sbox_entry default_sbox row e = v /\ forall e', (e' < 16)%nat -> sbox_entry default_sbox row e' = v -> e' = e.
Proof.
  assert (H : forallb (fun row => forallb (inv_ok row) (map N.of_nat (seq 0 16))) (seq 0 8) = true) by (vm_compute; reflexivity).
  intros row v Hr Hv. rewrite forallb_forall in H. specialize (H row ltac:(apply in_seq; lia)). rewrite forallb_forall in H.
  specialize (H v). rewrite in_map_iff in H. assert (Hs : In (N.to_nat v) (seq 0 16)) by (apply in_seq; lia). specialize (H (ex_intro _ (N.to_nat v) (conj (N2Nat.id v) Hs))).
  unfold inv_ok in H. apply Nat.eqb_eq in H.
  destruct (filter (fun e => N.eqb (sbox_entry default_sbox row e) v) (seq 0 16)) as [|e [|? ?]] eqn:E; cbn in H; try discriminate.
  assert (Hin : forall x, In x [e] <-> (x < 16)%nat /\ sbox_entry default_sbox row x = v).
  { intros x. rewrite <- E, filter_In, in_seq, N.eqb_eq. intuition lia. }
  exists e. destruct (proj1 (Hin e) (or_introl eq_refl)) as [H1 H2]. split; [exact H1|]. split; [exact H2|].
  intros e' He' Hv'. destruct (proj2 (Hin e') (conj He' Hv')) as [->|[]]. reflexivity.
Qed.
