(** General lemmas on bytes, words and lists. *)
From Coq Require Export Lia ZifyBool ZifyNat ZifyN.
From Verif Require Export Base.
Ltac Zify.zify_post_hook ::= Z.div_mod_to_equations.
Global Arguments N.add : simpl never.
Global Arguments N.mul : simpl never.
Global Arguments N.sub : simpl never.
Global Arguments N.div : simpl never.
Global Arguments N.modulo : simpl never.
Global Arguments N.pow : simpl never.
Global Arguments N.shiftl : simpl never.
Global Arguments N.shiftr : simpl never.
Global Arguments N.lxor : simpl never.
Global Arguments N.lor : simpl never.
Global Arguments N.land : simpl never.
Global Arguments N.of_nat : simpl never.
Global Arguments N.to_nat : simpl never.
Global Arguments N.eqb : simpl never.
Global Arguments N.leb : simpl never.
Global Arguments N.ltb : simpl never.

(** ** bits *)
Lemma testbit_high a k i : a < 2 ^ k -> k <= i -> N.testbit a i = false.
Proof.
  intros Ha Hi. destruct (N.eq_dec a 0) as [->|Hn]; [apply N.bits_0|].
  apply N.bits_above_log2. apply N.log2_lt_pow2; [lia|].
  eapply N.lt_le_trans; [exact Ha|]. apply N.pow_le_mono_r; lia.
Qed.

Lemma bits_lt a k : (forall i, k <= i -> N.testbit a i = false) -> a < 2 ^ k.
Proof.
  intros H. destruct (N.lt_ge_cases a (2 ^ k)) as [|Hge]; [assumption|exfalso].
  assert (Ha : 0 < a) by (pose proof (N.pow_nonzero 2 k); lia).
  assert (Hl : k <= N.log2 a) by (apply N.log2_le_pow2; assumption).
  specialize (H _ Hl). rewrite N.bit_log2 in H by lia. discriminate.
Qed.

Lemma lxor_lt a b k : a < 2 ^ k -> b < 2 ^ k -> N.lxor a b < 2 ^ k.
Proof.
  intros Ha Hb. apply bits_lt. intros i Hi.
  rewrite N.lxor_spec, (testbit_high a k), (testbit_high b k); auto.
Qed.
Lemma lor_lt a b k : a < 2 ^ k -> b < 2 ^ k -> N.lor a b < 2 ^ k.
Proof.
  intros Ha Hb. apply bits_lt. intros i Hi.
  rewrite N.lor_spec, (testbit_high a k), (testbit_high b k); auto.
Qed.
Lemma land_lt_l a b k : a < 2 ^ k -> N.land a b < 2 ^ k.
Proof.
  intros Ha. apply bits_lt. intros i Hi.
  rewrite N.land_spec, (testbit_high a k); auto.
Qed.

Lemma land_shiftl_0 a b k : a < 2 ^ k -> N.land a (N.shiftl b k) = 0.
Proof.
  intros Ha. apply N.bits_inj. intros i. rewrite N.land_spec, N.bits_0.
  destruct (N.lt_ge_cases i k) as [Hi|Hi].
  - rewrite N.shiftl_spec_low by assumption. apply andb_false_r.
  - rewrite (testbit_high a k) by assumption. reflexivity.
Qed.

Lemma lor_add a b k : a < 2 ^ k -> N.lor a (N.shiftl b k) = a + b * 2 ^ k.
Proof.
  intros Ha. pose proof (land_shiftl_0 a b k Ha) as H0.
  rewrite <- N.lxor_lor, <- N.add_nocarry_lxor by assumption.
  rewrite N.shiftl_mul_pow2. reflexivity.
Qed.
Lemma lor_add' a b k : a < 2 ^ k -> N.lor (N.shiftl b k) a = a + b * 2 ^ k.
Proof. intros Ha. rewrite N.lor_comm. apply lor_add; assumption. Qed.

Lemma land_ones_mod x k : N.land x (2 ^ k - 1) = x mod 2 ^ k.
Proof. rewrite <- N.land_ones. unfold N.ones. rewrite N.shiftl_1_l, N.sub_1_r. reflexivity. Qed.
Lemma land_255 x : N.land x 255 = x mod 256.
Proof. exact (land_ones_mod x 8). Qed.
Lemma land_15 x : N.land x 15 = x mod 16.
Proof. exact (land_ones_mod x 4). Qed.

Lemma lxor_cancel_r a b : N.lxor (N.lxor a b) b = a.
Proof. rewrite N.lxor_assoc, N.lxor_nilpotent, N.lxor_0_r. reflexivity. Qed.

(** ** byte strings *)
Lemma bytes_app a b : bytes a -> bytes b -> bytes (a ++ b).
Proof. intros Ha Hb. apply Forall_app; auto. Qed.
Lemma bytes_firstn n l : bytes l -> bytes (firstn n l).
Proof. intros H. unfold bytes. rewrite <- (firstn_skipn n l) in H. apply Forall_app in H. tauto. Qed.
Lemma bytes_skipn n l : bytes l -> bytes (skipn n l).
Proof. intros H. unfold bytes. rewrite <- (firstn_skipn n l) in H. apply Forall_app in H. tauto. Qed.
Lemma bytes_rev l : bytes l -> bytes (rev l).
Proof. intros H. apply Forall_rev. exact H. Qed.
Lemma bytes_zeros n : bytes (zeros n).
Proof. induction n; simpl; constructor; [unfold is_byte; lia|assumption]. Qed.
Lemma length_zeros n : length (zeros n) = n.
Proof. apply repeat_length. Qed.
Lemma bytesb_ok l : bytesb l = true -> bytes l.
Proof. unfold bytesb, bytes. rewrite forallb_forall, Forall_forall. intros H x Hx. specialize (H x Hx). unfold is_byte. lia. Qed.

Lemma le_val_app a b : le_val (a ++ b) = le_val a + 256 ^ N.of_nat (length a) * le_val b.
Proof.
  induction a as [|x a IH]; cbn [app le_val length].
  - change (256 ^ N.of_nat 0) with 1. lia.
  - rewrite IH, Nat2N.inj_succ, N.pow_succ_r'. lia.
Qed.
Lemma le_val_lt l : bytes l -> le_val l < 256 ^ N.of_nat (length l).
Proof.
  induction 1 as [|x l Hx Hl IH]; cbn [le_val length]; [reflexivity|].
  rewrite Nat2N.inj_succ, N.pow_succ_r'. unfold is_byte in Hx. lia.
Qed.
Lemma le_bytes_length n x : length (le_bytes n x) = n.
Proof. revert x; induction n; simpl; auto. Qed.
Lemma le_bytes_bytes n x : bytes (le_bytes n x).
Proof. revert x; induction n; intros x; simpl; constructor; [unfold is_byte; lia|apply IHn]. Qed.
Lemma le_bytes_bytesn n x : bytesn n (le_bytes n x).
Proof. split; [apply le_bytes_bytes|apply le_bytes_length]. Qed.
Lemma le_val_le_bytes n x : le_val (le_bytes n x) = x mod 256 ^ N.of_nat n.
Proof.
  revert x; induction n as [|n IH]; intros x; cbn [le_bytes le_val].
  - change (256 ^ N.of_nat 0) with 1. rewrite N.mod_1_r. reflexivity.
  - rewrite IH, Nat2N.inj_succ, N.pow_succ_r'.
    rewrite (N.mod_mul_r x 256) by (try apply N.pow_nonzero; lia). lia.
Qed.
Lemma le_bytes_le_val l : bytes l -> le_bytes (length l) (le_val l) = l.
Proof.
  induction 1 as [|x l Hx Hl IH]; cbn [le_val length le_bytes]; [reflexivity|].
  unfold is_byte in Hx.
  replace ((x + 256 * le_val l) mod 256) with x by lia.
  replace ((x + 256 * le_val l) / 256) with (le_val l) by lia.
  rewrite IH. reflexivity.
Qed.
Lemma le_bytes_le_val_n n l : bytesn n l -> le_bytes n (le_val l) = l.
Proof. intros [H <-]. apply le_bytes_le_val; assumption. Qed.
Lemma le_val_inj l1 l2 : bytes l1 -> bytes l2 -> length l1 = length l2 -> le_val l1 = le_val l2 -> l1 = l2.
Proof.
  intros H1 H2 Hl He. rewrite <- (le_bytes_le_val l1), <- (le_bytes_le_val l2), He, Hl; auto.
Qed.
Lemma le_val_le_bytes_small n x : x < 256 ^ N.of_nat n -> le_val (le_bytes n x) = x.
Proof. intros H. rewrite le_val_le_bytes. apply N.mod_small; assumption. Qed.
Lemma le_val_zeros n : le_val (zeros n) = 0.
Proof. induction n; simpl; [reflexivity|]. unfold zeros in IHn. rewrite IHn. reflexivity. Qed.

Lemma be_val_app a b : be_val (a ++ b) = be_val a * 256 ^ N.of_nat (length b) + be_val b.
Proof. unfold be_val. rewrite rev_app_distr, le_val_app, rev_length. lia. Qed.
Lemma be_val_lt l : bytes l -> be_val l < 256 ^ N.of_nat (length l).
Proof. intros H. unfold be_val. rewrite <- rev_length. apply le_val_lt, bytes_rev, H. Qed.
Lemma be_bytes_length n x : length (be_bytes n x) = n.
Proof. unfold be_bytes. rewrite rev_length. apply le_bytes_length. Qed.
Lemma be_bytes_bytes n x : bytes (be_bytes n x).
Proof. apply bytes_rev, le_bytes_bytes. Qed.
Lemma be_val_be_bytes n x : x < 256 ^ N.of_nat n -> be_val (be_bytes n x) = x.
Proof. intros H. unfold be_val, be_bytes. rewrite rev_involutive. apply le_val_le_bytes_small, H. Qed.
Lemma be_bytes_be_val l : bytes l -> be_bytes (length l) (be_val l) = l.
Proof.
  intros H. unfold be_val, be_bytes. rewrite <- (rev_length l).
  rewrite le_bytes_le_val by (apply bytes_rev, H). apply rev_involutive.
Qed.

(** ** xorl *)
Lemma xorl_length a b : length (xorl a b) = Nat.min (length a) (length b).
Proof. revert b; induction a as [|x a IH]; intros [|y b]; simpl; auto. Qed.
Lemma xorl_bytes a b : bytes a -> bytes b -> bytes (xorl a b).
Proof.
  intros Ha; revert b; induction Ha as [|x a Hx Ha IH]; intros b Hb; simpl; [constructor|].
  destruct Hb as [|y b Hy Hb]; constructor.
  - apply (lxor_lt x y 8); [exact Hx|exact Hy].
  - apply IH; assumption.
Qed.
Lemma xorl_cancel a b : (length a <= length b)%nat -> xorl (xorl a b) b = a.
Proof.
  revert b; induction a as [|x a IH]; intros [|y b] H; simpl in *; try reflexivity; try lia.
  rewrite lxor_cancel_r, IH by lia. reflexivity.
Qed.
Lemma xorl_comm a b : xorl a b = xorl b a.
Proof. revert b; induction a as [|x a IH]; intros [|y b]; simpl; auto. rewrite N.lxor_comm, IH. reflexivity. Qed.
Lemma xorl_app a1 a2 b1 b2 : length a1 = length b1 -> xorl (a1 ++ a2) (b1 ++ b2) = xorl a1 b1 ++ xorl a2 b2.
Proof.
  revert b1; induction a1 as [|x a1 IH]; intros [|y b1] H; simpl in *; try discriminate; auto.
  rewrite IH by lia. reflexivity.
Qed.
Lemma xorl_firstn n a b : xorl (firstn n a) b = firstn n (xorl a b).
Proof.
  revert n b; induction a as [|x a IH]; intros [|n] [|y b]; simpl; auto.
  rewrite IH. reflexivity.
Qed.
Lemma xorl_firstn_r n a b : (length a <= n)%nat -> xorl a (firstn n b) = xorl a b.
Proof.
  revert n b; induction a as [|x a IH]; intros [|n] [|y b] H; simpl in *; auto; try lia.
  rewrite IH by lia. reflexivity.
Qed.

(** ** lists of known length *)
Lemma list_len0 {A} (l : list A) : length l = 0%nat -> l = [].
Proof. destruct l; [reflexivity|discriminate]. Qed.
Lemma list_lenS {A} (l : list A) n : length l = S n -> exists x t, l = x :: t /\ length t = n.
Proof. destruct l as [|x t]; [discriminate|]. intros H. exists x, t. simpl in H. split; [reflexivity|lia]. Qed.

(** Destruct a list of literal length. *)
Ltac explode l :=
  match goal with
  | H : length l = 0%nat |- _ => apply list_len0 in H; subst l
  | H : length l = S ?n |- _ =>
      let x := fresh "b" in let t := fresh "t" in let E := fresh "E" in
      apply list_lenS in H; destruct H as (x & t & E & H); subst l; explode t
  end.

Ltac forall_inv :=
  repeat match goal with
  | H : Forall _ (_ :: _) |- _ => inversion H; clear H; subst
  | H : Forall _ [] |- _ => clear H
  | H : bytes (_ :: _) |- _ => inversion H; clear H; subst
  | H : bytes [] |- _ => clear H
  end.

(** ** chunks *)
Lemma chunks_fuel_mono n l f1 f2 : (0 < n)%nat -> (length l <= f1)%nat -> (length l <= f2)%nat ->
  chunks_fuel f1 n l = chunks_fuel f2 n l.
Proof.
  intros Hn. revert l f2. induction f1 as [|f1 IH]; intros l f2 H1 H2.
  - destruct l; [|simpl in H1; lia]. destruct f2; reflexivity.
  - destruct f2 as [|f2]; [destruct l; [reflexivity|simpl in H2; lia]|].
    cbn [chunks_fuel]. destruct l as [|x l]; [reflexivity|].
    f_equal. apply IH; rewrite skipn_length; cbn [length] in *; lia.
Qed.
Lemma chunks_nil n : chunks n [] = [].
Proof. reflexivity. Qed.
Lemma chunks_cons n l : (0 < n)%nat -> l <> [] -> chunks n l = firstn n l :: chunks n (skipn n l).
Proof.
  intros Hn Hl. unfold chunks. destruct l as [|x l]; [congruence|].
  cbn [length chunks_fuel]. f_equal. apply chunks_fuel_mono; auto; rewrite skipn_length; cbn [length]; lia.
Qed.
Lemma chunks_app n a b : (0 < n)%nat -> length a = n -> chunks n (a ++ b) = a :: chunks n b.
Proof.
  intros Hn Ha.
  assert (Hne : a ++ b <> []) by (intros He; apply app_eq_nil in He; destruct He as [He _]; subst a; simpl in Ha; lia).
  rewrite chunks_cons by assumption.
  rewrite firstn_app, skipn_app, Ha, Nat.sub_diag. simpl.
  rewrite firstn_all2, skipn_all2, app_nil_r by lia. reflexivity.
Qed.
Lemma chunks_concat n l : (0 < n)%nat -> concat (chunks n l) = l.
Proof.
  intros Hn. remember (length l) as k eqn:Hk. revert l Hk.
  induction k as [k IH] using lt_wf_ind; intros l Hk.
  destruct l as [|x l]; [reflexivity|].
  rewrite chunks_cons by (auto; discriminate). cbn [concat].
  rewrite (IH (length (skipn n (x :: l)))), ?firstn_skipn; auto.
  rewrite skipn_length, Hk. cbn [length]; lia.
Qed.
Lemma chunks_map_app {k} n a b : (0 < n)%nat -> length a = (k * n)%nat -> chunks n (a ++ b) = chunks n a ++ chunks n b.
Proof.
  intros Hn. revert a. induction k as [|k IH]; intros a Ha.
  - destruct a; [reflexivity|simpl in Ha; lia].
  - rewrite <- (firstn_skipn n a), <- app_assoc.
    rewrite !(chunks_app n (firstn n a)) by (auto; rewrite firstn_length; simpl in Ha; lia).
    rewrite IH by (rewrite skipn_length; simpl in Ha; lia). reflexivity.
Qed.

(** ** memory *)
Lemma upd_same m a v : upd m a v a = v.
Proof. unfold upd. rewrite N.eqb_refl. reflexivity. Qed.
Lemma upd_other m a v x : x <> a -> upd m a v x = m x.
Proof. intros H. unfold upd. destruct (N.eqb_spec x a); [contradiction|reflexivity]. Qed.
Lemma rd_length m a n : length (rd m a n) = n.
Proof. revert a; induction n; simpl; auto. Qed.
Lemma rd_ext m m' a n : (forall x, a <= x < a + N.of_nat n -> m x = m' x) -> rd m a n = rd m' a n.
Proof.
  revert a; induction n as [|n IH]; intros a H; simpl; [reflexivity|].
  rewrite H by lia. rewrite IH; [reflexivity|]. intros x Hx. apply H. lia.
Qed.
Lemma wr_ext m m' a l : (forall x, m x = m' x) -> forall x, wr m a l x = wr m' a l x.
Proof.
  revert m m' a; induction l as [|v l IH]; intros m m' a H x; simpl; [apply H|].
  apply IH. intros y. unfold upd. destruct (y =? a); auto.
Qed.
Lemma wr_out m a l x : (x < a \/ a + N.of_nat (length l) <= x) -> wr m a l x = m x.
Proof.
  revert m a; induction l as [|v l IH]; intros m a H; simpl in *; [reflexivity|].
  rewrite IH by lia. apply upd_other. lia.
Qed.
Lemma rd_wr_same m a l : rd (wr m a l) a (length l) = l.
Proof.
  revert m a; induction l as [|v l IH]; intros m a; simpl; [reflexivity|].
  rewrite IH. f_equal. rewrite wr_out by lia. apply upd_same.
Qed.
Lemma rd_wr_out m a l b n : (b + N.of_nat n <= a \/ a + N.of_nat (length l) <= b) -> rd (wr m a l) b n = rd m b n.
Proof. intros H. apply rd_ext. intros x Hx. apply wr_out. lia. Qed.
Lemma rd_app m a n k : rd m a (n + k) = rd m a n ++ rd m (a + N.of_nat n) k.
Proof.
  revert a; induction n as [|n IH]; intros a; simpl.
  - rewrite N.add_0_r. reflexivity.
  - rewrite IH. replace (a + 1 + N.of_nat n) with (a + N.of_nat (S n)) by lia. reflexivity.
Qed.
Lemma wr_app m a l1 l2 : wr m a (l1 ++ l2) = wr (wr m a l1) (a + N.of_nat (length l1)) l2.
Proof.
  revert m a; induction l1 as [|v l1 IH]; intros m a; simpl.
  - rewrite N.add_0_r. reflexivity.
  - rewrite IH. f_equal. lia.
Qed.
Lemma rd_nth m a n i d : (i < n)%nat -> nth i (rd m a n) d = m (a + N.of_nat i).
Proof.
  revert a i; induction n as [|n IH]; intros a i H; [lia|].
  destruct i as [|i]; simpl; [f_equal; lia|]. rewrite IH by lia. f_equal. lia.
Qed.
Lemma mem_eq_from_rd m m' a n : rd m a n = rd m' a n -> forall x, a <= x < a + N.of_nat n -> m x = m' x.
Proof.
  intros H x Hx. pose proof (f_equal (fun l => nth (N.to_nat (x - a)) l 0) H) as Hn.
  cbv beta in Hn. rewrite !rd_nth in Hn by lia.
  replace (a + N.of_nat (N.to_nat (x - a))) with x in Hn by lia. exact Hn.
Qed.

Lemma nth_map_seq {A} (g : nat -> A) n i d : (i < n)%nat -> nth i (map g (seq 0 n)) d = g i.
Proof.
  intros H. rewrite (nth_indep _ d (g 0%nat)) by (rewrite map_length, seq_length; exact H).
  rewrite (map_nth g). rewrite seq_nth by exact H. reflexivity.
Qed.
Lemma skipn_add {A} a b (l : list A) : skipn (a + b) l = skipn b (skipn a l).
Proof. revert l; induction a as [|a IH]; intros l; [reflexivity|]. destruct l; [rewrite !skipn_nil; reflexivity|apply IH]. Qed.
Lemma firstn_add {A} a b (l : list A) : firstn (a + b) l = firstn a l ++ firstn b (skipn a l).
Proof. revert l; induction a as [|a IH]; intros l; [reflexivity|]. destruct l; [rewrite ?firstn_nil; reflexivity|cbn; f_equal; apply IH]. Qed.
