(** Lemmas about the cipher (Model_Cipher). *)
From Verif Require Import Lib Proof_Gost89 Proof_Gost89Modes Proof_Params.
From Verif Require Export Spec_Gost89 Model_Cipher Spec_Cipher.

#[local] Opaque gostcrypt.
Ltac ctxs := unfold refill, set_iv, set_num, set_buf, set_oiv, set_g, set_enc in *;
  cbn [c_enc c_iv c_g c_num c_buf c_oiv] in *.

Lemma refill_set_num x n : refill (set_num x n) = set_num (refill x) n.
Proof. destruct x. ctxs. reflexivity. Qed.
Lemma refill_set_iv_refill x v : refill (set_iv (refill x) v) = refill (set_iv x v).
Proof. destruct x. ctxs. reflexivity. Qed.
Lemma refill_refill x : refill (refill x) = refill x.
Proof. destruct x. ctxs. reflexivity. Qed.

Definition cwf (c : cipher_ctx) : Prop := c_num c < 8 /\ length (c_iv c) = 8%nat /\ length (c_buf c) = 8%nat.
Definition synced (c : cipher_ctx) : Prop := c_num c = 0 -> c_buf c = gostcrypt (c_g c) (c_iv c).

(** ** Byte at a time *)
Definition offn (c : cipher_ctx) : nat := N.to_nat ((8 - c_num c) mod 8).
Definition bstep (c : cipher_ctx) (b : N) : cipher_ctx * N :=
  let off := offn c in
  let v := N.lxor b (nth off (c_buf c) 0) in
  let c1 := set_iv c (lset (c_iv c) off (if c_enc c then v else b)) in
  (if Nat.eqb off 7 then set_num (refill c1) 0 else set_num c1 (7 - N.of_nat off), v).
Fixpoint bsteps (c : cipher_ctx) (l : list N) : cipher_ctx * list N :=
  match l with
  | [] => (c, [])
  | b :: t => let '(c1, v) := bstep c b in let '(c2, vs) := bsteps c1 t in (c2, v :: vs)
  end.
Lemma bsteps_app c a b : bsteps c (a ++ b) =
  let '(c1, o1) := bsteps c a in let '(c2, o2) := bsteps c1 b in (c2, o1 ++ o2).
Proof.
  revert c; induction a as [|x a IH]; intros c; cbn [bsteps app].
  - destruct (bsteps c b); reflexivity.
  - destruct (bstep c x) as [c1 v]. rewrite IH. destruct (bsteps c1 a) as [c2 o1]. destruct (bsteps c2 b); reflexivity.
Qed.
Lemma bsteps_length c l : length (snd (bsteps c l)) = length l.
Proof.
  revert c; induction l as [|b l IH]; intros c; [reflexivity|]. cbn [bsteps].
  destruct (bstep c b) as [c1 v]. specialize (IH c1). destruct (bsteps c1 l). cbn [snd length] in *. congruence.
Qed.

Fixpoint lsets (l : list N) (off : nat) (vs : list N) : list N :=
  match vs with [] => l | v :: t => lsets (lset l off v) (S off) t end.
Lemma lsets_length l off vs : length (lsets l off vs) = length l.
Proof. revert l off; induction vs as [|v vs IH]; intros l off; [reflexivity|]. cbn [lsets]. now rewrite IH, lset_length. Qed.
Lemma lsets_block l vs : length l = 8%nat -> length vs = 8%nat -> lsets l 0 vs = vs.
Proof. intros Hl Hv. explode l. explode vs. reflexivity. Qed.

Lemma skipn_nth (l : list N) n : (n < length l)%nat -> skipn n l = nth n l 0 :: skipn (S n) l.
Proof. revert n; induction l as [|x l IH]; intros [|n] H; cbn [length skipn nth] in *; try lia; auto. rewrite IH by lia. reflexivity. Qed.

Lemma set_iv_iv c a b : set_iv (set_iv c a) b = set_iv c b. Proof. reflexivity. Qed.
Lemma set_iv_same c : set_iv c (c_iv c) = c. Proof. destruct c; reflexivity. Qed.

Lemma byte_loop_ok k : forall c m src dst off, dst <= src \/ src + N.of_nat k <= dst ->
  (off + k <= length (c_buf c))%nat ->
  let ins := rd m src k in let outs := xorl ins (skipn off (c_buf c)) in
  byte_loop k c m src dst off =
  (set_iv c (lsets (c_iv c) off (if c_enc c then outs else ins)), wr m dst outs).
Proof.
  induction k as [|k IH]; intros c m src dst off Hd Hb; cbn [byte_loop].
  - cbn [rd xorl wr]. destruct (c_enc c); cbn [lsets]; now rewrite set_iv_same.
  - rewrite IH; [|lia|destruct (c_enc c); cbn; lia].
    set (v := N.lxor (m src) (nth off (c_buf c) 0)).
    assert (He : rd (upd m dst v) (src + 1) k = rd m (src + 1) k) by (apply rd_ext; intros; apply upd_other; lia).
    assert (Hbuf : c_buf (if c_enc c then set_iv c (lset (c_iv c) off v) else set_iv c (lset (c_iv c) off (m src))) = c_buf c)
      by (destruct (c_enc c); reflexivity).
    rewrite He, Hbuf. cbn [rd]. rewrite (skipn_nth (c_buf c) off) by lia. cbn [xorl wr]. fold v.
    destruct (c_enc c) eqn:E; cbn [set_iv c_enc c_iv lsets]; rewrite ?E; reflexivity.
Qed.

(** [bsteps] inside one block. *)
Lemma bsteps_part l : forall c, cwf c -> l <> [] -> (offn c + length l <= 8)%nat ->
  let outs := xorl l (skipn (offn c) (c_buf c)) in
  let c1 := set_iv c (lsets (c_iv c) (offn c) (if c_enc c then outs else l)) in
  bsteps c l = (if Nat.eqb (offn c + length l) 8 then set_num (refill c1) 0
                else set_num c1 (8 - N.of_nat (offn c + length l)), outs).
Proof.
  induction l as [|b l IH]; intros c Hc Hne Hl; [congruence|].
  destruct Hc as (Hn & Hiv & Hbuf). cbn [bsteps].
  assert (Ho : (offn c < 8)%nat) by (unfold offn; lia).
  set (o := offn c) in *. unfold bstep. fold o. set (v := N.lxor b (nth o (c_buf c) 0)).
  set (c1 := set_iv c (lset (c_iv c) o (if c_enc c then v else b))).
  destruct l as [|b' l].
  - cbn [bsteps length] in *. rewrite (skipn_nth (c_buf c) o) by lia. cbn [xorl]. fold v.
    replace (lsets (c_iv c) o (if c_enc c then [v] else [b])) with (lset (c_iv c) o (if c_enc c then v else b)) by (destruct (c_enc c); reflexivity).
    fold c1. destruct (Nat.eqb_spec o 7) as [E|E].
    + rewrite E. cbn [Nat.add Nat.eqb]. reflexivity.
    + destruct (Nat.eqb_spec (o + 1) 8); [lia|]. f_equal. f_equal. lia.
  - cbn [length] in Hl. destruct (Nat.eqb_spec o 7) as [E|E]; [lia|].
    set (c2 := set_num c1 (7 - N.of_nat o)).
    assert (Ho2 : offn c2 = S o) by (unfold offn, c2, set_num; cbn [c_num]; lia).
    assert (Hc2 : cwf c2).
    { unfold cwf, c2, c1, set_num, set_iv. cbn [c_num c_iv c_buf]. rewrite lset_length. lia. }
    specialize (IH c2 Hc2 ltac:(discriminate) ltac:(rewrite Ho2; cbn [length]; lia)). cbv zeta in IH.
    rewrite IH. rewrite Ho2. change (c_buf c2) with (c_buf c). change (c_enc c2) with (c_enc c).
    change (c_iv c2) with (lset (c_iv c) o (if c_enc c then v else b)).
    rewrite (skipn_nth (c_buf c) o) by lia. fold v.
    replace (S o + length (b' :: l))%nat with (o + length (b :: b' :: l))%nat by (cbn [length]; lia).
    set (w := b' :: l). change (xorl (b :: w) (nth o (c_buf c) 0 :: skipn (S o) (c_buf c)))
      with (v :: xorl w (skipn (S o) (c_buf c))).
    set (ow := xorl w (skipn (S o) (c_buf c))).
    replace (lsets (c_iv c) o (if c_enc c then v :: ow else b :: w))
      with (lsets (lset (c_iv c) o (if c_enc c then v else b)) (S o) (if c_enc c then ow else w)) by (destruct (c_enc c); reflexivity).
    destruct (Nat.eqb (o + length (b :: w)) 8); reflexivity.
Qed.

Lemma refill_cwf c : cwf c -> cwf (set_num (refill c) 0).
Proof. intros (Hn & Hi & Hb). repeat split; cbn; try lia. Qed.

Lemma gostcrypt_length c b : length (gostcrypt c b) = 8%nat.
Proof. apply gostcrypt_bytesn. Qed.

(** ** The multi-block loops as exact memory writes *)
Lemma cfb_loop_wr bytef step c (go : list N -> list (list N) -> list (list N)) :
  (forall iv, go iv [] = []) ->
  (forall iv p t, go iv (p :: t) = xorl p (gostcrypt c iv) :: go (step p (gostcrypt c iv)) t) ->
  (forall m src dst g, length g = 8%nat -> dst <= src \/ src + 8 <= dst ->
     let p := rd m src 8 in bytef m src dst g = (wr m dst (xorl p g), step p g)) ->
  forall n iv m src dst,
  dst <= src \/ src + 8 * N.of_nat n <= dst ->
  cfb_loop bytef c n iv m src dst = wr m dst (concat (go iv (chunks 8 (rd m src (8 * n))))).
Proof.
  intros Hgo0 Hgo1 Hbf. induction n as [|n IH]; intros iv m src dst Hd.
  - cbn [cfb_loop]. change (8 * 0)%nat with 0%nat. cbn [rd]. rewrite chunks_nil, Hgo0. reflexivity.
  - cbn [cfb_loop]. rewrite Hbf by (apply gostcrypt_length || lia).
    replace (8 * S n)%nat with (8 + 8 * n)%nat by lia. rewrite rd_app.
    rewrite chunks_app by (rewrite ?rd_length; lia).
    rewrite Hgo1. cbn [concat]. rewrite IH by lia.
    set (p := rd m src 8).
    assert (Hp : length (xorl p (gostcrypt c iv)) = 8%nat)
      by (rewrite xorl_length; unfold p; rewrite rd_length, gostcrypt_length; reflexivity).
    rewrite rd_wr_out by (rewrite Hp; lia).
    rewrite wr_app, Hp. reflexivity.
Qed.
Lemma enc_cfb_wr c iv m src dst blocks : let n := Z.to_nat blocks in
  dst <= src \/ src + 8 * N.of_nat n <= dst ->
  gost_enc_cfb c iv m src dst blocks = wr m dst (concat (cfb_encrypt (gostcrypt c) iv (chunks 8 (rd m src (8 * n))))).
Proof.
  intros n Hd. apply (cfb_loop_wr cfb_enc_bytes (fun p g => xorl p g)); [reflexivity|reflexivity| |exact Hd].
  intros m0 s d g Hg Hsd p. rewrite cfb_enc_bytes_ok by (rewrite Hg; lia). rewrite Hg. reflexivity.
Qed.
Lemma dec_cfb_wr c iv m src dst blocks : let n := Z.to_nat blocks in
  dst <= src \/ src + 8 * N.of_nat n <= dst ->
  gost_dec_cfb c iv m src dst blocks = wr m dst (concat (cfb_decrypt (gostcrypt c) iv (chunks 8 (rd m src (8 * n))))).
Proof.
  intros n Hd. apply (cfb_loop_wr cfb_dec_bytes (fun p g => p)); [reflexivity|reflexivity| |exact Hd].
  intros m0 s d g Hg Hsd p. rewrite cfb_dec_bytes_ok by (rewrite Hg; lia). rewrite Hg. reflexivity.
Qed.

(** [bsteps] over whole blocks from a synced block boundary. *)
Lemma bsteps_block c l : cwf c -> synced c -> c_num c = 0 -> length l = 8%nat ->
  let out := xorl l (gostcrypt (c_g c) (c_iv c)) in
  bsteps c l = (refill (set_iv c (if c_enc c then out else l)), out).
Proof.
  intros Hc Hs Hn Hl out. pose proof Hc as (_ & Hiv & Hbuf).
  assert (Ho : offn c = 0%nat) by (unfold offn; rewrite Hn; reflexivity).
  rewrite bsteps_part; [|assumption|intros ->; discriminate|rewrite Ho; lia].
  rewrite Ho, Hl. cbn [Nat.add Nat.eqb skipn]. rewrite (Hs Hn). fold out.
  rewrite lsets_block; [|assumption|destruct (c_enc c); [unfold out; rewrite xorl_length, gostcrypt_length; lia|assumption]].
  clear Hs Ho. unfold out. clear out. destruct c as [e n iv oiv buf g]. cbn [c_num] in Hn. subst n. ctxs. reflexivity.
Qed.

Definition cfb_fun (e : bool) := if e then cfb_encrypt else cfb_decrypt.
Lemma cfb_fun_cons e E iv p t : cfb_fun e E iv (p :: t) =
  xorl p (E iv) :: cfb_fun e E (if e then xorl p (E iv) else p) t.
Proof. destruct e; reflexivity. Qed.

Lemma refill_iv_synced c v : synced (refill (set_iv c v)).
Proof. intros _. reflexivity. Qed.
Lemma refill_set_cwf c v : cwf c -> c_num c = 0 -> length v = 8%nat -> cwf (refill (set_iv c v)).
Proof. intros (Hn & Hi & Hb) H0 Hv. unfold cwf, refill, set_iv, set_buf; cbn. rewrite gostcrypt_length. lia. Qed.

Lemma last_block e E : forall iv l n, (forall b, length (E b) = 8%nat) -> length l = (8 * S n)%nat ->
  let outs := concat (cfb_fun e E iv (chunks 8 l)) in
  length outs = length l.
Proof.
  intros iv l n HE. revert iv l; induction n as [|n IH]; intros iv l Hl outs; unfold outs.
  - rewrite <- (app_nil_r l). rewrite chunks_app by lia. rewrite chunks_nil, cfb_fun_cons. destruct e; cbn; rewrite !app_nil_r, xorl_length, HE; lia.
  - rewrite <- (firstn_skipn 8 l) at 1. rewrite chunks_app by (rewrite ?firstn_length; lia).
    rewrite cfb_fun_cons. cbn [concat]. rewrite app_length, xorl_length, HE, firstn_length.
    rewrite IH by (rewrite skipn_length; lia). rewrite skipn_length. lia.
Qed.

Lemma bsteps_blocks n : forall c l, cwf c -> synced c -> c_num c = 0 -> length l = (8 * S n)%nat ->
  let outs := concat (cfb_fun (c_enc c) (gostcrypt (c_g c)) (c_iv c) (chunks 8 l)) in
  bsteps c l = (refill (set_iv c (skipn (8 * n) (if c_enc c then outs else l))), outs).
Proof.
  induction n as [|n IH]; intros c l Hc Hs Hn Hl outs; unfold outs.
  - rewrite (bsteps_block c l Hc Hs Hn) by lia. 
    assert (Ec : chunks 8 l = [l]) by (rewrite <- (app_nil_r l) at 1; rewrite chunks_app by lia; now rewrite chunks_nil).
    rewrite Ec, cfb_fun_cons.
    change (8 * 0)%nat with 0%nat. cbn [skipn].
    replace (cfb_fun (c_enc c) (gostcrypt (c_g c)) _ []) with (@nil (list N)) by (destruct (c_enc c); reflexivity).
    cbn [concat]. rewrite !app_nil_r. reflexivity.
  - assert (Hab : exists a b, l = a ++ b /\ length a = 8%nat /\ length b = (8 * S n)%nat).
    { exists (firstn 8 l), (skipn 8 l). rewrite firstn_skipn, firstn_length, skipn_length. repeat split; lia. }
    destruct Hab as (a & b & -> & Ha & Hb). clear Hl outs.
    rewrite bsteps_app, (bsteps_block c a Hc Hs Hn Ha).
    set (o := xorl a (gostcrypt (c_g c) (c_iv c))).
    assert (Hlo : length o = 8%nat) by (unfold o; rewrite xorl_length, gostcrypt_length; lia).
    set (c1 := refill (set_iv c (if c_enc c then o else a))).
    assert (Hc1 : cwf c1) by (apply refill_set_cwf; [assumption..|destruct (c_enc c); assumption]).
    rewrite (IH c1 b Hc1 (refill_iv_synced _ _) Hn Hb).
    rewrite chunks_app by lia. rewrite cfb_fun_cons. cbn [concat]. fold o.
    change (c_enc c1) with (c_enc c). change (c_g c1) with (c_g c).
    change (c_iv c1) with (if c_enc c then o else a).
    set (ob := concat (cfb_fun (c_enc c) (gostcrypt (c_g c)) (if c_enc c then o else a) (chunks 8 b))).
    f_equal. unfold c1. change (refill (set_iv c (skipn (8 * n) (if c_enc c then ob else b))) =
      refill (set_iv c (skipn (8 * S n) (if c_enc c then o ++ ob else a ++ b)))).
    f_equal. f_equal. replace (8 * S n)%nat with (8 + 8 * n)%nat by lia. rewrite skipn_add. f_equal.
    destruct (c_enc c); rewrite skipn_app, skipn_all2 by lia; rewrite ?Hlo, ?Ha; reflexivity.
Qed.

(** ** do_cipher as byte steps *)
(** With no gamma bytes left and a whole block to do, the code recomputes the gamma. *)
Definition presync (c : cipher_ctx) (inl : N) : cipher_ctx :=
  if (c_num c =? 0) && (8 <=? inl) then refill c else c.

Lemma to_int_small x : x < 2 ^ 31 -> to_int x = Z.of_N x.
Proof.
  intros H. unfold to_int. rewrite N.mod_small by lia. destruct (Z.ltb_spec (Z.of_N x) (2 ^ 31)); [reflexivity|lia].
Qed.

Lemma offn_pos c : c_num c < 8 -> c_num c <> 0 -> offn c = N.to_nat (8 - c_num c).
Proof. intros H1 H2. unfold offn. f_equal. apply N.mod_small. lia. Qed.

Lemma cwf_bsteps l : forall c, cwf c -> cwf (fst (bsteps c l)).
Proof.
  induction l as [|b l IH]; intros c Hc; [exact Hc|]. cbn [bsteps].
  assert (Hc1 : cwf (fst (bstep c b))).
  { destruct Hc as (Hn & Hi & Hb). unfold bstep. cbn [fst].
    destruct (Nat.eqb_spec (offn c) 7) as [E|E].
    - unfold cwf, refill, set_iv, set_buf, set_num; cbn. rewrite lset_length, gostcrypt_length. lia.
    - unfold cwf, refill, set_iv, set_buf, set_num; cbn. rewrite lset_length. lia. }
  destruct (bstep c b) as [c1 v]. cbn [fst] in Hc1. specialize (IH c1 Hc1).
  destruct (bsteps c1 l). exact IH.
Qed.
Lemma synced_bsteps l : forall c, synced c -> synced (fst (bsteps c l)).
Proof.
  induction l as [|b l IH]; intros c Hc; [exact Hc|]. cbn [bsteps].
  assert (Hc1 : synced (fst (bstep c b))).
  { unfold bstep. cbn [fst]. destruct (Nat.eqb_spec (offn c) 7) as [E|E].
    - intros _. reflexivity.
    - intros H. cbn in H. assert (offn c < 8)%nat by (unfold offn; lia). lia. }
  destruct (bstep c b) as [c1 v]. cbn [fst] in Hc1. specialize (IH c1 Hc1).
  destruct (bsteps c1 l). exact IH.
Qed.
Lemma bsteps_num l : forall c, c_num c < 8 ->
  c_num (fst (bsteps c l)) = (c_num c + 7 * N.of_nat (length l)) mod 8.
Proof.
  induction l as [|b l IH]; intros c Hc; cbn [bsteps length]; [cbn [fst]; rewrite N.mul_0_r, N.add_0_r, N.mod_small by assumption; reflexivity|].
  assert (Hc1 : c_num (fst (bstep c b)) = (c_num c + 7) mod 8).
  { unfold bstep. cbn [fst]. assert (Ho : N.of_nat (offn c) = (8 - c_num c) mod 8) by (unfold offn; lia).
    destruct (Nat.eqb_spec (offn c) 7) as [E|E].
    - cbn. assert (c_num c = 1) as -> by lia. reflexivity.
    - cbn. rewrite Ho. assert ((8 - c_num c) mod 8 <> 7) by lia. lia. }
  destruct (bstep c b) as [c1 v]. cbn [fst] in Hc1. specialize (IH c1 ltac:(lia)).
  destruct (bsteps c1 l) as [c2 vs]. cbn [fst] in *. rewrite IH, Hc1. lia.
Qed.

(** head part: consumes k <= num bytes *)
Lemma head_part_ok c m src dst inl : cwf c -> 0 < inl -> dst <= src \/ src + inl <= dst ->
  let k := if c_num c =? 0 then 0 else if c_num c <? inl then c_num c else inl in
  let ins := rd m src (N.to_nat k) in
  head_part c m src dst inl =
  (fst (bsteps c ins), wr m dst (snd (bsteps c ins)), src + k, dst + k, inl - k).
Proof.
  intros Hc Hinl Hd. unfold head_part. destruct (N.eqb_spec (c_num c) 0) as [E|E].
  - cbn [N.to_nat rd bsteps fst snd wr]. now rewrite !N.add_0_r, N.sub_0_r.
  - set (k := if c_num c <? inl then c_num c else inl). cbv zeta. set (ins := rd m src (N.to_nat k)). pose proof Hc as (Hn & Hi & Hb).
    assert (Hk : 0 < k <= c_num c /\ k <= inl) by (unfold k; destruct (N.ltb_spec (c_num c) inl); lia).
    rewrite byte_loop_ok; [|lia|lia]. fold ins.
    pose proof (offn_pos c Hn E) as Ho.
    assert (Hins : length ins = N.to_nat k) by apply rd_length.
    assert (Hne : ins <> []) by (intros C; rewrite C in Hins; cbn [length] in Hins; lia).
    pose proof (bsteps_part ins c Hc Hne ltac:(rewrite Ho, Hins; lia)) as Hbs. cbv zeta in Hbs. rewrite Hbs, Ho. cbn [fst snd].
    f_equal. f_equal. f_equal. f_equal.
    rewrite Hins. destruct (N.eqb_spec (c_num c - k) 0) as [E2|E2].
    + destruct (Nat.eqb_spec (N.to_nat (8 - c_num c) + N.to_nat k) 8); [|lia].
      rewrite E2. apply refill_set_num.
    + destruct (Nat.eqb_spec (N.to_nat (8 - c_num c) + N.to_nat k) 8); [lia|]. f_equal. lia.
Qed.

Lemma rd_wr_tail m dst l n : length l = (8 * S n)%nat ->
  rd (wr m dst l) (dst + 8 * N.of_nat n) 8 = skipn (8 * n) l.
Proof.
  intros Hl. rewrite <- (firstn_skipn (8 * n) l) at 1. rewrite wr_app, firstn_length, Hl, Nat.min_l by lia.
  replace (N.of_nat (8 * n)) with (8 * N.of_nat n) by lia.
  assert (H8 : length (skipn (8 * n) l) = 8%nat) by (rewrite skipn_length; lia).
  set (t := skipn (8 * n) l) in *. rewrite <- H8. apply rd_wr_same.
Qed.
Lemma rd_skipn m a n k : (k <= n)%nat -> skipn k (rd m a n) = rd m (a + N.of_nat k) (n - k).
Proof.
  intros H. replace n with (k + (n - k))%nat at 1 by lia. rewrite rd_app, skipn_app, skipn_all2 by (rewrite rd_length; lia).
  rewrite rd_length, Nat.sub_diag. reflexivity.
Qed.

(** block part *)
Lemma block_part_ok c m src dst inl : cwf c -> c_num c = 0 -> inl < 2 ^ 31 -> dst <= src \/ src + inl <= dst ->
  let b := inl / 8 in let ins := rd m src (8 * N.to_nat b) in
  let c0 := if b =? 0 then c else refill c in
  block_part c m src dst inl =
  (fst (bsteps c0 ins), wr m dst (snd (bsteps c0 ins)), src + b * 8, dst + b * 8, inl - b * 8).
Proof.
  intros Hc Hn Hl Hd b ins c0. unfold block_part. rewrite N.shiftr_div_pow2. change (2 ^ 3) with 8. fold b.
  unfold c0. destruct (N.eqb_spec b 0) as [E|E].
  - unfold ins. rewrite E. cbn [N.to_nat Nat.mul rd bsteps fst snd wr]. now rewrite N.mul_0_l, !N.add_0_r, N.sub_0_r.
  - destruct (N.to_nat b) as [|n] eqn:Eb; [lia|].
    assert (Hb : b = N.of_nat n + 1) by lia.
    assert (Hbl : b * 8 <= inl) by (unfold b; lia).
    assert (Hins : length ins = (8 * S n)%nat) by apply rd_length.
    assert (Hr : cwf (refill c)).
    { destruct Hc as (H1 & H2 & H3). unfold cwf, refill, set_buf; cbn. rewrite gostcrypt_length. lia. }
    rewrite (bsteps_blocks n (refill c) ins Hr (fun _ => eq_refl) Hn Hins).
    change (c_enc (refill c)) with (c_enc c). change (c_g (refill c)) with (c_g c). change (c_iv (refill c)) with (c_iv c).
    rewrite to_int_small by lia. cbn [fst snd].
    assert (Ez : Z.to_nat (Z.of_N b) = S n) by lia.
    destruct (c_enc c) eqn:Ee.
    + rewrite enc_cfb_wr by lia. rewrite Ez. fold ins.
      pose proof (last_block true (gostcrypt (c_g c)) (c_iv c) ins n (gostcrypt_length (c_g c)) Hins) as Hlen. cbv zeta in Hlen.
      change (cfb_fun true) with cfb_encrypt in *.
      set (outs := concat (cfb_encrypt (gostcrypt (c_g c)) (c_iv c) (chunks 8 ins))) in *.
      replace (dst + b * 8 - 8) with (dst + 8 * N.of_nat n) by lia.
      rewrite rd_wr_tail by congruence. reflexivity.
    + rewrite dec_cfb_wr by lia. rewrite Ez. fold ins. change (cfb_fun false) with cfb_decrypt.
      replace (rd m (src + b * 8 - 8) 8) with (skipn (8 * n) ins); [reflexivity|].
      unfold ins. rewrite rd_skipn by lia. f_equal; lia.
Qed.

Lemma tail_part_ok c m src dst inl : cwf c -> (c_num c = 0 \/ inl = 0) -> inl < 8 -> dst <= src \/ src + inl <= dst ->
  let ins := rd m src (N.to_nat inl) in
  tail_part c m src dst inl = (fst (bsteps c ins), wr m dst (snd (bsteps c ins)), dst + inl).
Proof.
  intros Hc Hn Hl Hd ins. unfold tail_part. destruct (N.eqb_spec inl 0) as [E|E].
  - unfold ins. rewrite E. cbn [N.to_nat rd bsteps fst snd wr]. now rewrite N.add_0_r.
  - destruct Hn as [Hn|Hn]; [|lia]. pose proof Hc as (_ & Hi & Hb).
    rewrite byte_loop_ok by lia. fold ins.
    assert (Hins : length ins = N.to_nat inl) by apply rd_length.
    assert (Ho : offn c = 0%nat) by (unfold offn; rewrite Hn; reflexivity).
    assert (Hne : ins <> []) by (intros C; rewrite C in Hins; cbn [length] in Hins; lia).
    pose proof (bsteps_part ins c Hc Hne ltac:(rewrite Ho, Hins; lia)) as Hbs. cbv zeta in Hbs. rewrite Hbs, Ho. cbn [fst snd].
    destruct (Nat.eqb_spec (0 + length ins) 8); [lia|]. f_equal. f_equal. f_equal. rewrite Hins. lia.
Qed.

Lemma do_cipher_ok c m src dst inl : cwf c -> 0 < inl < 2 ^ 31 -> dst <= src \/ src + inl <= dst ->
  let ins := rd m src (N.to_nat inl) in
  let r := bsteps (presync c inl) ins in
  do_cipher c m dst (Some src) inl = (fst r, wr m dst (snd r), Z.of_N inl).
Proof.
  intros Hc Hinl Hd ins r. unfold do_cipher. destruct (N.eqb_spec inl 0); [lia|].
  rewrite head_part_ok by (assumption || lia).
  set (k := if c_num c =? 0 then 0 else if c_num c <? inl then c_num c else inl).
  assert (Hk : k <= inl /\ k <= c_num c /\ (k = inl \/ k = c_num c)).
  { unfold k. destruct (N.eqb_spec (c_num c) 0); [lia|]. destruct (N.ltb_spec (c_num c) inl); lia. }
  set (i1 := rd m src (N.to_nat k)). set (c1 := fst (bsteps c i1)).
  assert (Hc1 : cwf c1) by (apply cwf_bsteps, Hc).
  assert (Hl1 : length (snd (bsteps c i1)) = N.to_nat k) by (rewrite bsteps_length; apply rd_length).
  destruct Hc as (Hn & Hi & Hb).
  assert (Hn1 : c_num c1 = (c_num c + 7 * k) mod 8).
  { unfold c1. rewrite bsteps_num by assumption. unfold i1. rewrite rd_length. f_equal. lia. }
  set (m1 := wr m dst (snd (bsteps c i1))).
  assert (Hm1 : forall n, (n <= N.to_nat (inl - k))%nat -> rd m1 (src + k) n = rd m (src + k) n).
  { intros n0 Hn0. apply rd_wr_out. rewrite Hl1. lia. }
  destruct (N.eqb_spec (inl - k) 0) as [E1|E1].
  - (* all consumed by the head *)
    assert (k = inl) by lia. rewrite (tail_part_ok c1 m1 (src + k) (dst + k) (inl - k)) by (assumption || lia || (right; lia)).
    rewrite E1. change (rd m1 (src + k) (N.to_nat 0)) with (@nil N). cbn [bsteps fst snd wr].
    rewrite to_int_small by lia. subst r. unfold presync.
    assert (Hns : (c_num c =? 0) && (8 <=? inl) = false) by lia.
    rewrite Hns. unfold ins. subst i1 c1 m1. rewrite H in *. f_equal. lia.
  - assert (Hkn : k = c_num c) by lia. assert (Hn10 : c_num c1 = 0) by (rewrite Hn1, Hkn; lia).
    rewrite block_part_ok by (assumption || lia).
    set (b := (inl - k) / 8). set (c1' := if b =? 0 then c1 else refill c1).
    rewrite Hm1 by lia.
    set (i2 := rd m (src + k) (8 * N.to_nat b)). set (c2 := fst (bsteps c1' i2)).
    assert (Hc1' : cwf c1').
    { unfold c1'. destruct (b =? 0); [assumption|]. destruct Hc1 as (H1 & H2 & H3). unfold cwf, refill, set_buf; cbn. rewrite gostcrypt_length. lia. }
    assert (Hc2 : cwf c2) by (apply cwf_bsteps, Hc1').
    assert (Hn2 : c_num c2 = 0).
    { unfold c2. rewrite bsteps_num by apply Hc1'. unfold i2. rewrite rd_length.
      assert (c_num c1' = 0) as -> by (unfold c1'; destruct (b =? 0); exact Hn10). lia. }
    assert (Hl2 : length (snd (bsteps c1' i2)) = (8 * N.to_nat b)%nat) by (rewrite bsteps_length; apply rd_length).
    rewrite tail_part_ok by (assumption || lia || (left; exact Hn2) || (unfold b; lia)).
    set (m2 := wr m1 (dst + k) (snd (bsteps c1' i2))).
    assert (Hm2 : rd m2 (src + k + b * 8) (N.to_nat (inl - k - b * 8)) = rd m (src + k + b * 8) (N.to_nat (inl - k - b * 8))).
    { unfold m2. rewrite rd_wr_out by (rewrite Hl2; unfold b; lia). unfold m1. apply rd_wr_out. rewrite Hl1. unfold b; lia. }
    rewrite Hm2. set (i3 := rd m (src + k + b * 8) (N.to_nat (inl - k - b * 8))).
    assert (Hins : ins = i1 ++ i2 ++ i3).
    { unfold ins, i1, i2, i3. replace (N.to_nat inl) with (N.to_nat k + (8 * N.to_nat b + N.to_nat (inl - k - b * 8)))%nat by (unfold b; lia).
      rewrite !rd_app. f_equal. f_equal; [f_equal; lia|f_equal; lia]. }
    assert (Hr : r = let '(d1, o1) := bsteps c i1 in let '(d2, o2) := bsteps c1' i2 in let '(d3, o3) := bsteps c2 i3 in (d3, o1 ++ o2 ++ o3)).
    { unfold r. rewrite Hins. 
      assert (Hps : bsteps (presync c inl) (i1 ++ i2 ++ i3) = let '(d1, o1) := bsteps c i1 in let '(d2, o2) := bsteps c1' (i2 ++ i3) in (d2, o1 ++ o2)).
      { rewrite bsteps_app. unfold presync. destruct (N.eqb_spec (c_num c) 0) as [E0|E0].
        - assert (Hi1 : i1 = []) by (unfold i1; replace k with 0 by lia; reflexivity).
          assert (Hc1e : c1 = c) by (unfold c1; rewrite Hi1; reflexivity).
          rewrite Hi1. cbn [bsteps andb]. unfold c1', b. rewrite Hc1e. replace (inl - k) with inl by lia.
          destruct (N.leb_spec 8 inl); destruct (N.eqb_spec (inl / 8) 0); try lia; reflexivity.
        - cbn [andb].
          assert (Hs1 : refill c1 = c1).
          { assert (Hi1ne : i1 <> []) by (intros C; assert (length i1 = 0%nat) as Hz by (rewrite C; reflexivity); unfold i1 in Hz; rewrite rd_length in Hz; lia).
            assert (Hi1l : length i1 = N.to_nat k) by apply rd_length.
            pose proof (offn_pos c Hn E0) as Ho.
            unfold c1. rewrite (bsteps_part i1 c (conj Hn (conj Hi Hb)) Hi1ne) by (rewrite Ho, Hi1l; lia).
            cbn [fst]. rewrite Ho, Hi1l. destruct (Nat.eqb_spec (N.to_nat (8 - c_num c) + N.to_nat k) 8); [now rewrite refill_set_num, refill_refill|lia]. }
          unfold c1'. rewrite Hs1. replace (if b =? 0 then c1 else c1) with c1 by (destruct (b =? 0); reflexivity).
          unfold c1. destruct (bsteps c i1); reflexivity. }
      rewrite Hps, bsteps_app. unfold c2. destruct (bsteps c i1) as [d1 o1], (bsteps c1' i2) as [d2 o2]. cbn [fst]. destruct (bsteps d2 i3); reflexivity. }
    rewrite Hr. unfold m2, m1, c2, c1.
    rewrite to_int_small by (unfold b; lia).
    destruct (bsteps c i1) as [d1 o1]. destruct (bsteps c1' i2) as [d2 o2]. cbn [fst snd] in *.
    destruct (bsteps d2 i3) as [d3 o3]. cbn [fst snd].
    rewrite !wr_app, Hl1, Hl2.
    replace (dst + N.of_nat (N.to_nat k)) with (dst + k) by lia.
    replace (dst + k + N.of_nat (8 * N.to_nat b)) with (dst + k + b * 8) by lia.
    f_equal. unfold b. lia.
Qed.
