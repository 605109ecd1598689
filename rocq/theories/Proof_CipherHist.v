(** The cipher code follows the reference, for every history. *)
From Coq Require Import ZArith.
From Verif Require Import Lib Proof_Gost89 Proof_Gost89Modes Proof_Params Proof_Cipher Proof_CipherApi.
From Verif Require Export Model_CipherHist Spec_CipherHist.
#[local] Opaque encrypt gostcrypt gost_init gost_key unpack_sbox default_sbox.

Definition rel (c : cipher_ctx) (r : ref) : Prop :=
  setup (r_sbox r) (r_key r) (r_start r) (r_enc r) c /\ cwf c /\ c_iv c = r_reg r /\ c_buf c = r_gamma r /\ offn c = r_pos r /\
  bytesn 64 (r_sbox r) /\ bytesn 32 (r_key r) /\ bytesn 8 (r_start r) /\ bytesn 8 (r_reg r) /\ bytesn 8 (r_gamma r).

Lemma lset_split (l : list N) i v : (i < length l)%nat -> lset l i v = firstn i l ++ [v] ++ skipn (S i) l.
Proof.
  revert i; induction l as [|x l IH]; intros [|i] H; cbn [length] in H; try lia; [reflexivity|].
  cbn [lset firstn skipn app]. rewrite IH by lia. reflexivity.
Qed.
Lemma setup_refill p k o e c : setup p k o e c -> setup p k o e (refill c).
Proof. intros (rnd & g & A & B & C & D). exists rnd, g. auto. Qed.
Lemma rel_next c r : rel c r -> rel (refill c) (ref_next r).
Proof.
  intros (H1 & H2 & H3 & H4 & H5 & H6 & H7 & H8 & H9 & H10). split; [apply setup_refill, H1|].
  split; [destruct H2 as (A & B & C); unfold cwf; ctxs; rewrite gostcrypt_length; lia|].
  split; [exact H3|]. unfold ref_next. cbn [r_gamma r_pos r_sbox r_key r_start r_reg].
  assert (Hb : c_buf (refill c) = r_block r (r_reg r)).
  { change (c_buf (refill c)) with (gostcrypt (c_g c) (c_iv c)). rewrite H3. exact (setup_crypt _ _ _ _ _ _ H1 H6 H7 H9). }
  split; [exact Hb|]. split; [exact H5|]. repeat (split; [assumption|]). rewrite <- Hb.
  change (c_buf (refill c)) with (gostcrypt (c_g c) (c_iv c)). apply gostcrypt_bytesn.
Qed.
Lemma rel_byte c r b : rel c r -> is_byte b -> rel (fst (bstep c b)) (fst (ref_byte r b)) /\ snd (bstep c b) = snd (ref_byte r b).
Proof.
  intros HR Hb. pose proof HR as (H1 & H2 & H3 & H4 & H5 & H6 & H7 & H8 & H9 & H10).
  pose proof H2 as (Hn & Hi & Hbuf). assert (Ho : (offn c < 8)%nat) by (unfold offn; lia).
  assert (He : c_enc c = r_enc r) by (destruct H1 as (? & ? & _ & _ & _ & E); exact E).
  unfold bstep, ref_byte. cbn [fst snd]. rewrite <- H5, <- H4, <- He, <- H3 in *. split; [|reflexivity].
  set (o := offn c) in *. set (v := N.lxor b (nth o (c_buf c) 0)).
  rewrite <- lset_split by lia. set (iv' := lset (c_iv c) o (if c_enc c then v else b)).
  assert (Hv : is_byte v). { unfold v. apply (lxor_lt b _ 8 Hb). destruct H10 as [B L]. unfold bytes in B. rewrite Forall_forall in B. apply B, nth_In. lia. }
  assert (Hiv' : bytesn 8 iv').
  { destruct H9 as [B L]. split; [|unfold iv'; rewrite lset_length; exact L]. unfold iv'. rewrite lset_split by lia.
    apply bytes_app; [apply bytes_firstn, B|]. apply bytes_app; [constructor; [destruct (c_enc c); assumption|constructor]|apply bytes_skipn, B]. }
  set (r1 := REF _ _ _ _ _ _ _).
  destruct (Nat.eqb_spec o 7) as [E|E].
  - rewrite <- refill_set_num. apply rel_next. unfold rel, r1. cbn [r_gamma r_pos r_sbox r_key r_start r_reg r_enc].
    split; [destruct H1 as (rnd & g & A & B & C & D); exists rnd, g; auto|].
    split; [unfold cwf; ctxs; unfold iv'; rewrite lset_length; lia|]. split; [reflexivity|]. split; [reflexivity|].
    split; [unfold offn; ctxs; rewrite E; reflexivity|]. repeat (split; [assumption|]). assumption.
  - unfold rel, r1. cbn [r_gamma r_pos r_sbox r_key r_start r_reg r_enc].
    split; [destruct H1 as (rnd & g & A & B & C & D); exists rnd, g; auto|].
    split; [unfold cwf; ctxs; unfold iv'; rewrite lset_length; lia|]. split; [reflexivity|]. split; [reflexivity|].
    split; [unfold offn; ctxs; rewrite Nat.mod_small by lia; lia|]. repeat (split; [assumption|]). assumption.
Qed.
Lemma rel_bytes l : forall c r, rel c r -> bytes l -> rel (fst (bsteps c l)) (fst (ref_bytes r l)) /\ snd (bsteps c l) = snd (ref_bytes r l).
Proof.
  induction l as [|b l IH]; intros c r HR Hl; [split; [exact HR|reflexivity]|].
  inversion Hl as [|? ? A B]; subst. cbn [bsteps ref_bytes]. destruct (rel_byte c r b HR A) as [C D].
  destruct (bstep c b) as [c1 v], (ref_byte r b) as [r1 v']. cbn [fst snd] in C, D. subst v'.
  destruct (IH c1 r1 C B) as [F G]. destruct (bsteps c1 l), (ref_bytes r1 l). cbn [fst snd] in *. subst. split; [exact F|reflexivity].
Qed.
Lemma offn_zero c : c_num c < 8 -> (c_num c =? 0) = Nat.eqb (offn c) 0.
Proof. intros H. unfold offn. destruct (N.eqb_spec (c_num c) 0), (Nat.eqb_spec (N.to_nat ((8 - c_num c) mod 8)) 0); try reflexivity; lia. Qed.
Lemma rel_update c r d : rel c r -> bytes d -> N.of_nat (length d) < 2 ^ 31 ->
  let '(c', z, o) := update c d in let '(r', a) := ref_update r d in rel c' r' /\ AOut z o = a.
Proof.
  intros HR Hd Hl. destruct d as [|b t]; [rewrite update_empty; split; [exact HR|reflexivity]|].
  set (d := b :: t) in *. pose proof HR as (_ & H2 & _ & _ & H5 & _).
  rewrite update_ok by (assumption || (split; [discriminate|assumption])). cbv zeta.
  assert (Hp : rel (presync c (N.of_nat (length d))) (if Nat.eqb (r_pos r) 0 && Nat.leb 8 (length d) then ref_next r else r)).
  { unfold presync. rewrite offn_zero by apply H2. rewrite H5.
    replace (8 <=? N.of_nat (length d)) with (Nat.leb 8 (length d)) by (destruct (Nat.leb_spec 8 (length d)), (N.leb_spec 8 (N.of_nat (length d))); (reflexivity || lia)).
    destruct (_ && _); [apply rel_next|]; exact HR. }
  destruct (rel_bytes d _ _ Hp Hd) as [A B].
  unfold ref_update. unfold d at 4. fold d. destruct (ref_bytes _ d) as [r1 o]. cbn [fst snd] in *. rewrite B. split; [exact A|reflexivity].
Qed.
Lemma setup_sbox p0 k o e c p : setup p0 k o e c -> setup p k o e (set_g c (gost_init (c_g c) (Some (unpack_sbox p)))).
Proof. intros (rnd & g & A & B & C & D). exists rnd, g. split; [exact A|]. split; [|auto]. ctxs. rewrite B. apply gost_init_key. Qed.
Lemma rel_set_sbox c r p : rel c r -> bytesn 64 p -> rel (fst (fst (cipher_ctrl c DSTU_SET_CUSTOM_SBOX 64 (Some p)))) (ref_set_sbox r p).
Proof.
  intros (H1 & H2 & H3 & H4 & H5 & H6 & H7 & H8 & H9 & H10) Hp. rewrite ctrl_sbox_eq. cbn [fst]. apply rel_next.
  assert (Ho : c_oiv c = r_start r) by (destruct H1 as (? & ? & _ & _ & E & _); exact E).
  unfold rel. cbn [r_gamma r_pos r_sbox r_key r_start r_reg r_enc]. rewrite Ho.
  split; [apply setup_sbox with (p := p) in H1; destruct H1 as (rnd & g & A & B & C & D); exists rnd, g; auto|].
  split; [destruct H2 as (A & B & C); unfold cwf; ctxs; destruct H8; lia|]. split; [reflexivity|]. split; [exact H4|]. split; [exact H5|].
  repeat (split; [assumption|]). assumption.
Qed.
Definition init_g (rnd : list N) (c : cipher_ctx) (key : option (list N)) : gost_ctx :=
  match key with Some k => gost_key rnd (dflt (c_g c)) k | None => dflt (c_g c) end.
Lemma evp_v rnd c key v e : evp_init rnd c key (Some v) e = refill (CIPH e 0 v v (c_buf c) (init_g rnd c key)).
Proof. destruct key; [rewrite evp_init_kv|rewrite evp_init_v]; reflexivity. Qed.
Lemma evp_n rnd c key e : evp_init rnd c key None e = CIPH e (c_num c) (c_iv c) (c_oiv c) (c_buf c) (init_g rnd c key).
Proof. destruct key; [rewrite evp_init_k|rewrite evp_init_0]; reflexivity. Qed.
Lemma init_g_ok p k o e c rnd key : setup p k o e c -> mask_wf rnd ->
  exists rnd' g0, mask_wf rnd' /\ init_g rnd c key = gost_key rnd' (gost_init g0 (Some (unpack_sbox default_sbox))) (match key with Some k => k | None => k end).
Proof.
  intros (rnd' & g0 & A & B & _) Hr. unfold init_g, dflt. destruct key as [k1|]; [exists rnd, (c_g c); split; [exact Hr|reflexivity]|].
  exists rnd', g0. split; [exact A|]. rewrite B. apply gost_init_key.
Qed.
Lemma setup_make p k o e num iv buf G rnd g0 : mask_wf rnd -> G = gost_key rnd (gost_init g0 (Some (unpack_sbox p))) k -> setup p k o e (CIPH e num iv o buf G).
Proof. intros A B. exists rnd, g0. cbn [c_g c_oiv c_enc]. split; [exact A|]. split; [exact B|]. split; reflexivity. Qed.
Lemma rel_init c r rnd key iv enc : rel c r -> mask_wf rnd -> (forall k, key = Some k -> bytesn 32 k) -> (forall v, iv = Some v -> bytesn 8 v) ->
  rel (evp_init rnd c key iv enc) (ref_init r key iv enc).
Proof.
  intros (H1 & H2 & H3 & H4 & H5 & H6 & H7 & H8 & H9 & H10) Hr Hk Hv.
  assert (Ho : c_oiv c = r_start r) by (destruct H1 as (? & ? & _ & _ & E & _); exact E).
  assert (Hk' : bytesn 32 match key with Some k => k | None => r_key r end) by (destruct key; [apply Hk; reflexivity|exact H7]).
  destruct (init_g_ok _ _ _ _ _ rnd key H1 Hr) as (rnd' & g0 & A & B). unfold ref_init.
  destruct iv as [v|]; [rewrite evp_v|rewrite evp_n]; revert B; generalize (init_g rnd c key); intros G B.
  - specialize (Hv v eq_refl). apply rel_next. split; [exact (setup_make _ _ _ _ _ _ _ _ _ _ A B)|].
    split; [unfold cwf; cbn [c_num c_iv c_buf]; destruct H2 as (? & ? & ?), Hv; lia|].
    split; [reflexivity|]. split; [exact H4|]. split; [reflexivity|]. split; [exact default_bytesn|]. split; [exact Hk'|]. split; [exact Hv|]. split; [exact Hv|exact H10].
  - rewrite Ho. split; [exact (setup_make _ _ _ _ _ _ _ _ _ _ A B)|]. split; [exact H2|]. split; [exact H3|]. split; [exact H4|]. split; [exact H5|].
    split; [exact default_bytesn|]. split; [exact Hk'|]. split; [exact H8|]. split; [exact H9|exact H10].
Qed.
Lemma rel_ctrl c r cmd p1 p2 : rel c r -> (cmd = DSTU_SET_CUSTOM_SBOX -> p1 = 64%Z -> forall p, p2 = Some p -> bytesn 64 p) ->
  let '(c', z, b) := cipher_ctrl c cmd p1 p2 in let '(r', a) := ref_ctrl r cmd p1 p2 in rel c' r' /\ ACode z b = a.
Proof.
  intros HR Hp. unfold cipher_ctrl, ref_ctrl. change 4097%Z with DSTU_SET_CUSTOM_SBOX. change (cmd =? 7)%Z with (cmd =? EVP_CTRL_PBE_PRF_NID)%Z. destruct p2 as [p|].
  - destruct (Z.eqb_spec cmd DSTU_SET_CUSTOM_SBOX) as [E|E].
    + destruct (Z.eqb_spec p1 64) as [E1|E1]; cbn [negb]; [|split; [exact HR|reflexivity]].
      split; [|reflexivity]. subst p1 cmd. pose proof (rel_set_sbox c r p HR (Hp eq_refl eq_refl p eq_refl)) as H. rewrite ctrl_sbox_eq in H. exact H.
    + destruct (_ =? _)%Z; (split; [exact HR|reflexivity]).
  - destruct (_ =? _)%Z; [split; [exact HR|reflexivity]|]. destruct (_ =? _)%Z; (split; [exact HR|reflexivity]).
Qed.
Lemma rel_import c r v : rel c r -> bytes (a_data v) ->
  let '(c', z) := get_asn1 c v in let '(r', a) := ref_import r v in rel c' r' /\ ACode z false = a.
Proof.
  intros HR Hd. destruct (get_asn1_cases c v) as [(T & L & A2 & A3 & A12 & A13 & E)|[NE E]]; rewrite E; unfold ref_import.
  - rewrite T, L, A2, A3, A12, A13. cbn [Z.eqb Nat.eqb N.eqb andb Pos.eqb]. change (_ && _) with true. cbv iota.
    split; [|reflexivity]. 
    assert (H14 : bytesn 64 (skipn 14 (a_data v))) by (split; [apply bytes_skipn, Hd|rewrite skipn_length, L; reflexivity]).
    apply rel_set_sbox with (r := REF (r_enc r) (r_key r) (r_sbox r) (firstn 8 (skipn 4 (a_data v))) (r_reg r) (r_gamma r) (r_pos r)); [|exact H14].
    destruct HR as (H1 & H2 & H3 & H4 & H5 & H6 & H7 & H8 & H9 & H10).
    unfold rel. cbn [r_gamma r_pos r_sbox r_key r_start r_reg r_enc].
    split; [destruct H1 as (rnd & g & A & B & C & D); exists rnd, g; auto|]. split; [exact H2|]. split; [exact H3|]. split; [exact H4|]. split; [exact H5|].
    split; [exact H6|]. split; [exact H7|]. split; [|split; assumption].
    split; [apply bytes_firstn, bytes_skipn, Hd|]. rewrite firstn_length, skipn_length, L. reflexivity.
  - destruct (_ && _) eqn:B; [|split; [exact HR|reflexivity]]. exfalso. apply NE.
    repeat rewrite Bool.andb_true_iff in B. rewrite Z.eqb_eq, Nat.eqb_eq, !N.eqb_eq in B. tauto.
Qed.
Lemma rel_export c r stale : rel c r -> rows16 stale -> set_asn1 c stale = ASN1 V_ASN1_SEQUENCE (der_params (r_start r) (r_sbox r)).
Proof.
  intros (H1 & H2 & H3 & H4 & H5 & H6 & H7 & H8 & H9 & H10) Hs. destruct H1 as (rnd & g & A & B & C & D).
  unfold set_asn1. rewrite B, C, get_sbox_api by (assumption || apply unpack_wf). rewrite pack_unpack by assumption.
  unfold der_params, der. destruct H8 as [_ Hiv], H6 as [_ Hp]. rewrite app_length. cbn [length]. rewrite Hiv, Hp. reflexivity.
Qed.
Lemma cset_rel (w : nat -> cipher_ctx) (v : nat -> ref) i c r : (forall j, rel (w j) (v j)) -> rel c r -> forall j, rel (cset w i c j) (cset v i r j).
Proof. intros H H1 j. unfold cset. destruct (Nat.eqb j i); [exact H1|apply H]. Qed.
Lemma rel_call w v o : (forall j, rel (w j) (v j)) -> ccall_ok o ->
  (forall j, rel (fst (ccall_run w o) j) (fst (ref_call v o) j)) /\ snd (ccall_run w o) = snd (ref_call v o).
Proof.
  intros H Hok. destruct o as [i rnd key iv enc|i d|i|i cmd p1 p2|i x|i stale|i j]; cbn [ccall_run ref_call ccall_ok] in *.
  - destruct Hok as (A & B & C). cbn [fst snd]. split; [|reflexivity]. apply cset_rel; [exact H|]. apply rel_init; auto.
  - destruct Hok as [A B]. pose proof (rel_update (w i) (v i) d (H i) A B) as U.
    destruct (update (w i) d) as [[c z] o], (ref_update (v i) d) as [r a]. destruct U as [U1 U2]. cbn [fst snd]. split; [apply cset_rel; assumption|exact U2].
  - change (do_cipher (w i) (fun _ => 0) 0 None 0) with (w i, (fun _ : N => 0), 0%Z). cbv iota beta. cbn [fst snd]. split; [|reflexivity].
    intros j. unfold cset. destruct (Nat.eqb_spec j i); [subst|]; apply H.
  - pose proof (rel_ctrl (w i) (v i) cmd p1 p2 (H i) Hok) as U.
    destruct (cipher_ctrl (w i) cmd p1 p2) as [[c z] b], (ref_ctrl (v i) cmd p1 p2) as [r a]. destruct U as [U1 U2]. cbn [fst snd]. split; [apply cset_rel; assumption|exact U2].
  - pose proof (rel_import (w i) (v i) x (H i) Hok) as U.
    destruct (get_asn1 (w i) x) as [c z], (ref_import (v i) x) as [r a]. destruct U as [U1 U2]. cbn [fst snd]. split; [apply cset_rel; assumption|exact U2].
  - cbn [fst snd]. split; [exact H|]. apply (f_equal AValue). apply rel_export; [apply H|exact Hok].
  - cbn [fst snd]. split; [|reflexivity]. apply cset_rel; [exact H|apply H].
Qed.
Lemma rel_calls l : forall w v, (forall j, rel (w j) (v j)) -> Forall ccall_ok l -> snd (ccalls w l) = snd (ref_calls v l).
Proof.
  induction l as [|o l IH]; intros w v H Hl; [reflexivity|]. inversion Hl as [|? ? A B]; subst. cbn [ccalls ref_calls].
  destruct (rel_call w v o H A) as [C D]. destruct (ccall_run w o) as [w1 a], (ref_call v o) as [v1 a']. cbn [fst snd] in C, D. subst a'.
  specialize (IH w1 v1 C B). destruct (ccalls w1 l), (ref_calls v1 l). cbn [snd] in *. now rewrite IH.
Qed.
#[local] Transparent gost_init gost_key.
Lemma zero_key g b : gost_key (zeros 8) (gost_init g (Some b)) (zeros 32) = gost_init (CTX (zeros 8) (zeros 8) (k87 g) (k65 g) (k43 g) (k21 g)) (Some b).
Proof. reflexivity. Qed.
Lemma selected_eq : selected = CIPH false 0 (zeros 8) (zeros 8) (zeros 8) (gost_init (c_g fresh_ctx) (Some (unpack_sbox default_sbox))).
Proof. reflexivity. Qed.
Lemma selected_g : c_g selected = gost_key (zeros 8) (gost_init (c_g fresh_ctx) (Some (unpack_sbox default_sbox))) (zeros 32).
Proof. rewrite zero_key, selected_eq. reflexivity. Qed.
Lemma zeros_bytesn n : bytesn n (zeros n).
Proof. split; [apply bytes_zeros|apply repeat_length]. Qed.
Lemma rel0 : rel selected ref0.
Proof.
  unfold rel, ref0. cbn [r_gamma r_pos r_sbox r_key r_start r_reg r_enc].
  split; [exists (zeros 8), (c_g fresh_ctx); split; [exact wmask_ok|]; split; [exact selected_g|split; reflexivity]|].
  split; [split; [reflexivity|split; reflexivity]|]. split; [reflexivity|]. split; [reflexivity|]. split; [reflexivity|].
  split; [exact default_bytesn|]. repeat (split; [apply zeros_bytesn|]). apply zeros_bytesn.
Qed.
Lemma machine l : Forall ccall_ok l -> snd (ccalls (fun _ => selected) l) = snd (ref_calls (fun _ => ref0) l).
Proof. apply rel_calls. intros _. exact rel0. Qed.

(** ** Starting in the middle of a block, or with a gamma of another key or S-box *)
Lemma skipn_plus {A} b : forall a (l : list A), skipn a (skipn b l) = skipn (b + a) l.
Proof. induction b as [|b IH]; intros a [|x l]; cbn [skipn Nat.add]; rewrite ?skipn_nil; auto. Qed.
Lemma lsets_split vs : forall l n, (n + length vs <= length l)%nat -> lsets l n vs = firstn n l ++ vs ++ skipn (n + length vs) l.
Proof.
  induction vs as [|v vs IH]; intros l n H; cbn [lsets length app] in *.
  - rewrite Nat.add_0_r. symmetry. apply firstn_skipn.
  - rewrite IH by (rewrite lset_length; lia). rewrite lset_split by lia.
    assert (Hf : length (firstn n l) = n) by (rewrite firstn_length; lia).
    replace (S n) with (length (firstn n l) + 1)%nat at 1 by lia. rewrite firstn_app_2. cbn [firstn app]. rewrite <- app_assoc. cbn [app]. f_equal. f_equal. f_equal.
    rewrite skipn_app, skipn_all2 by lia. rewrite Hf. cbn [app]. replace (S n + length vs - n)%nat with (S (length vs)) by lia. change (skipn (S (length vs)) (v :: skipn (S n) l)) with (skipn (length vs) (skipn (S n) l)).
    rewrite skipn_plus. f_equal. lia.
Qed.
Lemma resume c msg p k o e : setup p k o e c -> cwf c -> bytesn 64 p -> bytesn 32 k -> bytesn 8 (c_iv c) -> bytesn 8 (c_buf c) -> bytes msg ->
  snd (bsteps c msg) = cfb_resume e (encrypt (packed_sbox p) k) (offn c) (c_iv c) (c_buf c) msg.
Proof.
  intros Hs Hc Hp Hk Hi Hb Hm. pose proof Hc as (Hn & Hli & Hlb). assert (Ho : (offn c < 8)%nat) by (unfold offn; lia).
  unfold cfb_resume. set (n := offn c) in *. set (a := firstn (8 - n) msg). set (b := skipn (8 - n) msg).
  assert (He : c_enc c = e) by (destruct Hs as (? & ? & _ & _ & _ & E); exact E).
  assert (Hm2 : msg = a ++ b) by (symmetry; apply firstn_skipn). rewrite Hm2 at 1.
  assert (Ha : (length a <= 8 - n)%nat) by (unfold a; rewrite firstn_length; lia).
  destruct (list_eq_dec N.eq_dec a []) as [E|E].
  - assert (Hmsg : msg = []) by (destruct msg; [reflexivity|unfold a in E; destruct (8 - n)%nat eqn:Q; [lia|discriminate]]).
    assert (Hb0 : b = []) by (unfold b; rewrite Hmsg; apply skipn_nil). rewrite Hb0, E.
    cbn [app bsteps snd xorl]. unfold cfb_stream. rewrite chunks_nil. destruct e; reflexivity.
  - rewrite bsteps_app. pose proof (bsteps_part a c Hc E ltac:(fold n; lia)) as HP. cbv zeta in HP. fold n in HP. rewrite HP, He. clear HP.
    set (x := xorl a (skipn n (c_buf c))).
    assert (Hx : length x = length a) by (unfold x; rewrite xorl_length, skipn_length; lia).
    set (c1 := set_iv c (lsets (c_iv c) n (if e then x else a))).
    destruct (Nat.eqb_spec (n + length a) 8) as [E8|E8].
    + set (c2 := set_num (refill c1) 0).
      assert (Hiv : c_iv c2 = firstn n (c_iv c) ++ (if e then x else a)).
      { change (c_iv c2) with (lsets (c_iv c) n (if e then x else a)). rewrite lsets_split by (destruct e; lia).
        rewrite skipn_all2 by (destruct e; lia). now rewrite app_nil_r. }
      assert (Hw : cwf c2) by (unfold c2; apply refill_cwf; unfold cwf, c1; ctxs; rewrite lsets_length; lia).
      assert (Hy : synced c2) by (intros _; reflexivity).
      pose proof (bsteps_stream c2 b Hw Hy eq_refl) as HB. destruct (bsteps c2 b) as [c3 ob]. cbn [snd] in *. rewrite HB. f_equal.
      change (c_enc c2) with (c_enc c). change (c_g c2) with (c_g c). rewrite He, Hiv. apply cfb_stream_ext.
      * intros y Hy8. exact (setup_crypt _ _ _ _ _ _ Hs Hp Hk Hy8).
      * intros; apply gostcrypt_bytesn.
      * split; [|rewrite app_length, firstn_length; destruct e; lia]. apply bytes_app; [apply bytes_firstn, Hi|].
        destruct e; [unfold x; apply xorl_bytes; [apply bytes_firstn, Hm|apply bytes_skipn, Hb]|apply bytes_firstn, Hm].
      * apply bytes_skipn, Hm.
    + assert (Hb0 : b = []) by (unfold b; apply skipn_all2; unfold a in E8, Ha; rewrite firstn_length in E8, Ha; lia).
      rewrite Hb0. cbn [bsteps snd]. unfold cfb_stream. rewrite chunks_nil. destruct e; reflexivity.
Qed.
Lemma updates_short c d ds : cwf c -> Forall upd_ok (d :: ds) -> c_num c <> 0 \/ (length d < 8)%nat ->
  snd (updates c (d :: ds)) = snd (bsteps c (concat (d :: ds))).
Proof.
  intros Hc HF HD. destruct (N.eq_dec (c_num c) 0) as [E|E].
  - assert (Hd : (length d < 8)%nat) by (destruct HD; [congruence|assumption]).
    inversion HF as [|? ? A B]; subst. cbn [updates concat]. rewrite update_ok by assumption. cbv zeta.
    assert (Hp : presync c (N.of_nat (length d)) = c) by (unfold presync; destruct (N.leb_spec 8 (N.of_nat (length d))); [lia|]; now rewrite Bool.andb_false_r).
    rewrite Hp, bsteps_app.
    assert (Hn : c_num (fst (bsteps c d)) <> 0).
    { rewrite bsteps_num by apply Hc. rewrite E. destruct A as [Hne _]. destruct d; [congruence|]. cbn [length] in *. lia. }
    pose proof (cwf_bsteps d c Hc) as Hc1. destruct (bsteps c d) as [c1 o1]. cbn [fst snd] in *.
    rewrite updates_ok; [|exact Hc1|intros Q; congruence|exact B]. cbn [snd]. destruct (bsteps c1 (concat ds)). reflexivity.
  - rewrite updates_ok; [reflexivity|exact Hc|intros Q; congruence|exact HF].
Qed.
Lemma pieces_upd ds : pieces ds -> Forall upd_ok ds.
Proof. intros H. eapply Forall_impl; [|exact H]. intros a (A & B & C). split; assumption. Qed.
Lemma pieces_bytes ds : pieces ds -> bytes (concat ds).
Proof. intros H. induction H as [|d ds (A & _) _ IH]; [constructor|]. cbn [concat]. apply bytes_app; assumption. Qed.
Lemma resume_updates c d ds p k o e : setup p k o e c -> cwf c -> bytesn 64 p -> bytesn 32 k -> bytesn 8 (c_iv c) -> bytesn 8 (c_buf c) -> pieces (d :: ds) ->
  c_num c <> 0 \/ (length d < 8)%nat ->
  snd (updates c (d :: ds)) = cfb_resume e (encrypt (packed_sbox p) k) (offn c) (c_iv c) (c_buf c) (concat (d :: ds)).
Proof. intros. rewrite updates_short by (try apply pieces_upd; assumption). apply (resume _ _ _ _ o); try assumption. apply pieces_bytes. assumption. Qed.
Lemma dflt_key' rnd g k : dflt (gost_key rnd (gost_init g (Some (unpack_sbox default_sbox))) k) = gost_key rnd (gost_init g (Some (unpack_sbox default_sbox))) k.
Proof. apply gost_init_key. Qed.
#[local] Opaque gost_init gost_key.
(** The IV first, the key afterwards, on a context with the key [k0]. *)
Lemma iv_key_short c0 p0 k0 o0 e0 rnd r1 k iv e1 e d ds : setup p0 k0 o0 e0 c0 -> cwf c0 -> bytesn 32 k0 -> mask_wf rnd -> bytesn 32 k -> bytesn 8 iv -> pieces (d :: ds) -> (length d < 8)%nat ->
  snd (updates (evp_init rnd (evp_init r1 c0 None (Some iv) e1) (Some k) None e) (d :: ds)) =
  cfb_resume e (encrypt (packed_sbox default_sbox) k) 0 iv (encrypt (packed_sbox default_sbox) k0 iv) (concat (d :: ds)).
Proof.
  intros Hs Hc Hk0 Hr Hk Hiv HF Hd.
  destruct Hs as (rnd0 & g0 & A0 & B0 & _).
  rewrite evp_n. set (c1 := evp_init r1 c0 None (Some iv) e1).
  assert (Hc1 : c1 = CIPH e1 0 iv iv (encrypt (packed_sbox default_sbox) k0 iv) (dflt (c_g c0))).
  { unfold c1. rewrite evp_init_v. apply (f_equal (fun z => CIPH e1 0 iv iv z (dflt (c_g c0)))).
    assert (Hst : setup default_sbox k0 iv e1 (CIPH e1 0 iv iv iv (dflt (c_g c0)))).
    { apply (setup_make _ _ _ _ _ _ _ _ rnd0 g0 A0). unfold dflt. rewrite B0. apply gost_init_key. }
    exact (setup_crypt _ _ _ _ _ iv Hst default_bytesn Hk0 Hiv). }
  assert (HE : bytesn 8 (encrypt (packed_sbox default_sbox) k0 iv)).
  { assert (Hst : setup default_sbox k0 iv e1 (CIPH e1 0 iv iv iv (dflt (c_g c0)))).
    { apply (setup_make _ _ _ _ _ _ _ _ rnd0 g0 A0). unfold dflt. rewrite B0. apply gost_init_key. }
    pose proof (setup_crypt _ _ _ _ _ iv Hst default_bytesn Hk0 Hiv) as Q. rewrite <- Q. apply gostcrypt_bytesn. }
  assert (HG : init_g rnd c1 (Some k) = gost_key rnd (gost_init (dflt (c_g c0)) (Some (unpack_sbox default_sbox))) k) by (rewrite Hc1; reflexivity).
  revert HG. generalize (init_g rnd c1 (Some k)). intros G HG. rewrite Hc1. cbn [c_num c_iv c_oiv c_buf]. revert HE. generalize (encrypt (packed_sbox default_sbox) k0 iv). intros gam HE.
  rewrite (resume_updates _ d ds default_sbox k iv e); cbn [c_num c_iv c_buf]; try assumption; try reflexivity.
  - exact (setup_make _ _ _ _ _ _ _ _ _ _ Hr HG).
  - destruct Hiv, HE. split; [reflexivity|]. split; assumption.
  - exact default_bytesn.
  - right; assumption.
Qed.

(** An S-box selected in the middle of a block. *)
Lemma ctrl_exact rnd c0 k iv sb e ds p ds' : mask_wf rnd -> bytesn 32 k -> bytesn 8 iv -> bytesn 64 p -> pieces ds -> pieces ds' ->
  let n := (length (concat ds) mod 8)%nat in
  snd (updates (fst (fst (cipher_ctrl (fst (fst (updates (start rnd c0 k iv sb e) ds))) DSTU_SET_CUSTOM_SBOX 64 (Some p)))) ds') =
  cfb_resume e (encrypt (packed_sbox p) k) n iv (encrypt (packed_sbox p) k iv) (concat ds').
Proof.
  intros Hr Hk Hiv Hp Hds Hds' n. destruct (updates_state rnd c0 k iv sb e ds Hr Hiv Hds) as (H1 & H2 & H3 & H4).
  set (c := fst (fst (updates (start rnd c0 k iv sb e) ds))) in *.
  destruct (ctrl_setup _ _ _ _ _ p H1 H2 (proj2 Hiv)) as (A1 & A2 & A3 & A4 & A5). cbv zeta in *.
  assert (Hbuf : c_buf (fst (fst (cipher_ctrl c DSTU_SET_CUSTOM_SBOX 64 (Some p)))) = encrypt (packed_sbox p) k iv).
  { rewrite <- (setup_crypt _ _ _ _ _ iv A1 Hp Hk Hiv). rewrite ctrl_sbox_eq. cbn [fst].
    assert (Ho : c_oiv c = iv) by (destruct H1 as (? & ? & _ & _ & E & _); exact E). rewrite Ho. reflexivity. }
  assert (HE : bytesn 8 (encrypt (packed_sbox p) k iv)) by (rewrite <- (setup_crypt _ _ _ _ _ iv A1 Hp Hk Hiv); apply gostcrypt_bytesn).
  set (c' := fst (fst (cipher_ctrl c DSTU_SET_CUSTOM_SBOX 64 (Some p)))) in *.
  rewrite updates_ok by (try apply pieces_upd; assumption). cbn [snd].
  rewrite (resume _ _ p k iv e) by (try apply pieces_bytes; try assumption; try (rewrite A5; assumption); rewrite Hbuf; assumption).
  rewrite A5, Hbuf. apply (f_equal (fun z => cfb_resume e (encrypt (packed_sbox p) k) z iv (encrypt (packed_sbox p) k iv) (concat ds'))).
  unfold offn. rewrite A4, H4. unfold n. generalize (length (concat ds)). intros q. lia.
Qed.
(** No key at all. *)
Lemma fresh_setup : exists p o e, setup p (zeros 32) o e selected.
Proof. destruct rel0 as (H & _). do 3 eexists. exact H. Qed.
#[local] Transparent gost_init gost_key.
Lemma fresh_dflt : dflt (c_g fresh_ctx) = gost_key (zeros 8) (gost_init (c_g fresh_ctx) (Some (unpack_sbox default_sbox))) (zeros 32).
Proof. rewrite zero_key. reflexivity. Qed.
#[local] Opaque gost_init gost_key.
Lemma no_key_stream r1 iv e ds : bytesn 8 iv -> pieces ds ->
  snd (updates (evp_init r1 fresh_ctx None (Some iv) e) ds) = cfb_stream e (encrypt (packed_sbox default_sbox) (zeros 32)) iv (concat ds).
Proof.
  intros Hiv Hds. rewrite evp_init_v, fresh_dflt.
  apply (cfb_session (zeros 8) (c_g fresh_ctx) (zeros 32) iv e ds default_sbox wmask_ok (zeros_bytesn 32) Hiv default_bytesn Hds).
Qed.
Lemma iv_key_short_fresh rnd r1 k iv e1 e d ds : mask_wf rnd -> bytesn 32 k -> bytesn 8 iv -> pieces (d :: ds) -> (length d < 8)%nat ->
  snd (updates (evp_init rnd (evp_init r1 fresh_ctx None (Some iv) e1) (Some k) None e) (d :: ds)) =
  cfb_resume e (encrypt (packed_sbox default_sbox) k) 0 iv (encrypt (packed_sbox default_sbox) (zeros 32) iv) (concat (d :: ds)).
Proof.
  intros. assert (E : evp_init r1 fresh_ctx None (Some iv) e1 = evp_init r1 selected None (Some iv) e1).
  { rewrite !evp_init_v. rewrite selected_g, dflt_key'. now rewrite fresh_dflt. }
  rewrite E. destruct rel0 as (Hs & Hc & _). eapply iv_key_short; try eassumption. apply zeros_bytesn.
Qed.
(** The parameters first, the key afterwards. *)
Lemma params_ctx r1 e1 iv p : bytesn 8 iv -> bytesn 64 p ->
  exists g0, fst (get_asn1 (evp_init r1 fresh_ctx None None e1) (ASN1 V_ASN1_SEQUENCE (der_params iv p))) =
             CIPH e1 0 iv iv (encrypt (packed_sbox p) (zeros 32) iv) (gost_key (zeros 8) (gost_init g0 (Some (unpack_sbox p))) (zeros 32)) /\
             bytesn 8 (encrypt (packed_sbox p) (zeros 32) iv).
Proof.
  intros Hiv Hp. rewrite import_der by assumption. cbn [fst]. rewrite evp_init_0, fresh_dflt, ctrl_sbox_eq. cbn [fst]. exists (c_g fresh_ctx).
  unfold set_oiv, set_g, set_iv. cbn [c_num c_iv c_oiv c_buf c_g c_enc]. rewrite gost_init_key. generalize (c_g fresh_ctx). intros g0.
  assert (Hst : setup p (zeros 32) iv e1 (CIPH e1 0 iv iv iv (gost_key (zeros 8) (gost_init g0 (Some (unpack_sbox p))) (zeros 32)))) by (apply (setup_make _ _ _ _ _ _ _ _ (zeros 8) g0 wmask_ok); reflexivity).
  pose proof (setup_crypt _ _ _ _ _ iv Hst Hp (zeros_bytesn 32) Hiv) as Q. cbn [c_g] in Q. rewrite <- Q. split; [reflexivity|apply gostcrypt_bytesn].
Qed.
Lemma params_key_short rnd r1 k iv p e1 e d ds : mask_wf rnd -> bytesn 32 k -> bytesn 8 iv -> bytesn 64 p -> pieces (d :: ds) -> (length d < 8)%nat ->
  snd (updates (evp_init rnd (fst (get_asn1 (evp_init r1 fresh_ctx None None e1) (ASN1 V_ASN1_SEQUENCE (der_params iv p)))) (Some k) None e) (d :: ds)) =
  cfb_resume e (encrypt (packed_sbox default_sbox) k) 0 iv (encrypt (packed_sbox p) (zeros 32) iv) (concat (d :: ds)).
Proof.
  intros Hr Hk Hiv Hp HF Hd. destruct (params_ctx r1 e1 iv p Hiv Hp) as (g0 & -> & HE). rewrite evp_init_k. cbn [c_num c_iv c_oiv c_buf c_g c_enc].
  revert HE. generalize (encrypt (packed_sbox p) (zeros 32) iv). intros gam HE. unfold dflt.
  rewrite (resume_updates _ d ds default_sbox k iv e); cbn [c_num c_iv c_buf]; try assumption; try reflexivity.
  - eapply setup_make; [exact Hr|reflexivity].
  - destruct Hiv, HE. split; [reflexivity|]. split; assumption.
  - exact default_bytesn.
  - right; assumption.
Qed.
Lemma params_key_long rnd r1 k iv p e1 e d ds : mask_wf rnd -> bytesn 32 k -> bytesn 8 iv -> bytesn 64 p -> pieces (d :: ds) -> (8 <= length d)%nat ->
  snd (updates (evp_init rnd (fst (get_asn1 (evp_init r1 fresh_ctx None None e1) (ASN1 V_ASN1_SEQUENCE (der_params iv p)))) (Some k) None e) (d :: ds)) =
  cfb_stream e (encrypt (packed_sbox default_sbox) k) iv (concat (d :: ds)).
Proof.
  intros Hr Hk Hiv Hp HF Hd. destruct (params_ctx r1 e1 iv p Hiv Hp) as (g0 & -> & HE). rewrite evp_init_k. cbn [c_num c_iv c_oiv c_buf c_g c_enc].
  revert HE. generalize (encrypt (packed_sbox p) (zeros 32) iv). intros gam HE. unfold dflt. pose proof (Forall_inv HF) as (A & B & C).
  rewrite updates_refill; [|split; [reflexivity|split; [apply Hiv|apply HE]]|reflexivity|split; assumption|assumption].
  cbv beta iota zeta delta [refill set_buf c_enc c_iv c_g c_num c_buf c_oiv].
  apply (cfb_session rnd _ k iv e (d :: ds) default_sbox Hr Hk Hiv default_bytesn HF).
Qed.
(** Enveloped data: encrypted with key and IV given at once, decrypted with the parameters read
    from the message and the key given afterwards. *)
Lemma xorl_assoc3 a : forall b c, xorl (xorl a b) c = xorl a (xorl b c).
Proof. induction a as [|x a IH]; intros [|y b] [|z c]; cbn [xorl]; try reflexivity. now rewrite N.lxor_assoc, IH. Qed.
Lemma xorl_fix a : forall x y, (length a <= length x)%nat -> (length a <= length y)%nat -> xorl a (xorl x y) = a <-> firstn (length a) x = firstn (length a) y.
Proof.
  induction a as [|v a IH]; intros [|b x] [|c y] H1 H2; cbn [length] in *; try lia; try (split; reflexivity). cbn [xorl firstn].
  specialize (IH x y ltac:(lia) ltac:(lia)). split; intros E; injection E as E1 E2.
  - apply IH in E2. rewrite E2. f_equal. apply N.lxor_eq. rewrite <- (N.lxor_0_l (N.lxor b c)), <- (N.lxor_nilpotent v), N.lxor_assoc, E1. reflexivity.
  - apply IH in E2. rewrite E2, E1, N.lxor_nilpotent, N.lxor_0_r. reflexivity.
Qed.
Lemma cfb_first E iv msg : (forall b, length (E b) = 8%nat) ->
  let ct := cfb_stream true E iv msg in firstn 8 ct = xorl (firstn 8 msg) (E iv) /\ skipn 8 ct = cfb_stream true E (firstn 8 ct) (skipn 8 msg).
Proof.
  intros HE ct. assert (Hc : ct = xorl (firstn 8 msg) (E iv) ++ cfb_stream true E (xorl (firstn 8 msg) (E iv)) (skipn 8 msg)).
  { unfold ct, cfb_stream. destruct msg as [|b t]; [rewrite !skipn_nil, chunks_nil; reflexivity|]. rewrite chunks_cons by (lia || discriminate). cbn [cfb_encrypt concat]. reflexivity. }
  assert (Hl : length (xorl (firstn 8 msg) (E iv)) = length (firstn 8 msg)) by (apply xorl_len_chunk, HE).
  destruct (Nat.le_gt_cases 8 (length msg)) as [H|H].
  - assert (H8 : length (xorl (firstn 8 msg) (E iv)) = 8%nat) by (rewrite Hl, firstn_length; lia).
    assert (F : firstn 8 ct = xorl (firstn 8 msg) (E iv)) by (rewrite Hc, <- H8 at 1; rewrite firstn_app, Nat.sub_diag, firstn_all; cbn [firstn]; apply app_nil_r).
    split; [exact F|]. rewrite F, Hc at 1. rewrite <- H8 at 1. rewrite skipn_app, Nat.sub_diag, skipn_all. reflexivity.
  - assert (Hs : skipn 8 msg = []) by (apply skipn_all2; lia). rewrite Hs in *.
    change (cfb_stream true E (xorl (firstn 8 msg) (E iv)) []) with (@nil N) in Hc. rewrite app_nil_r in Hc.
    assert (L : (length ct <= 8)%nat) by (rewrite Hc, Hl, firstn_length; lia).
    rewrite firstn_all2, skipn_all2 by lia. split; [exact Hc|reflexivity].
Qed.
Lemma enveloped_long rnd0 c0 stale rnd r1 k iv ms d ds : mask_wf rnd0 -> mask_wf rnd -> rows16 stale -> bytesn 32 k -> bytesn 8 iv -> pieces ms -> pieces (d :: ds) ->
  let c := start rnd0 c0 k iv None true in
  concat (d :: ds) = snd (updates c ms) -> (8 <= length d)%nat ->
  opened rnd r1 k (set_asn1 (fst (fst (updates c ms))) stale) (d :: ds) = concat ms.
Proof.
  intros Hr0 Hr Hst Hk Hiv Hms Hds c Hct Hd. unfold opened, c in *. rewrite (export_ok rnd0 c0 k iv None true ms stale Hr0 Hiv default_bytesn Hms Hst).
  rewrite params_key_long by (try exact default_bytesn; assumption). rewrite Hct.
  pose proof (cipher_stream rnd0 c0 k iv None true ms Hr0 Hk Hiv default_bytesn Hms) as [HS _].
  rewrite HS. cbn [the_sbox]. apply cfb_stream_inverse. intros b. apply encrypt_length.
Qed.
Lemma enveloped_short rnd0 c0 stale rnd r1 k iv ms d ds : mask_wf rnd0 -> mask_wf rnd -> rows16 stale -> bytesn 32 k -> bytesn 8 iv -> pieces ms -> pieces (d :: ds) ->
  let c := start rnd0 c0 k iv None true in
  concat (d :: ds) = snd (updates c ms) -> (length d < 8)%nat ->
  opened rnd r1 k (set_asn1 (fst (fst (updates c ms))) stale) (d :: ds) =
  xorl (firstn 8 (concat ms)) (xorl (encrypt (packed_sbox default_sbox) k iv) (encrypt (packed_sbox default_sbox) (zeros 32) iv)) ++ skipn 8 (concat ms).
Proof.
  intros Hr0 Hr Hst Hk Hiv Hms Hds c Hct Hd. unfold opened, c in *. rewrite (export_ok rnd0 c0 k iv None true ms stale Hr0 Hiv default_bytesn Hms Hst). cbn [the_sbox].
  rewrite params_key_short by (try exact default_bytesn; assumption). rewrite Hct.
  pose proof (cipher_stream rnd0 c0 k iv None true ms Hr0 Hk Hiv default_bytesn Hms) as [HS _]. rewrite HS. cbn [the_sbox].
  assert (HL : forall K b, length (encrypt (packed_sbox default_sbox) K b) = 8%nat) by (intros; apply encrypt_length).
  destruct (cfb_first (encrypt (packed_sbox default_sbox) k) iv (concat ms) (HL k)) as [F G].
  unfold cfb_resume. change (8 - 0)%nat with 8%nat. rewrite G, (skipn_O (encrypt _ _ _)), firstn_O, app_nil_l.
  rewrite cfb_stream_inverse by apply HL. rewrite F. now rewrite xorl_assoc3.
Qed.
Lemma enveloped_iff rnd0 c0 stale rnd r1 k iv ms d ds : mask_wf rnd0 -> mask_wf rnd -> rows16 stale -> bytesn 32 k -> bytesn 8 iv -> pieces ms -> pieces (d :: ds) ->
  let c := start rnd0 c0 k iv None true in
  concat (d :: ds) = snd (updates c ms) -> (length d < 8)%nat ->
  (opened rnd r1 k (set_asn1 (fst (fst (updates c ms))) stale) (d :: ds) = concat ms <->
   let n := Nat.min 8 (length (concat ms)) in
   firstn n (encrypt (packed_sbox default_sbox) k iv) = firstn n (encrypt (packed_sbox default_sbox) (zeros 32) iv)).
Proof.
  intros Hr0 Hr Hst Hk Hiv Hms Hds c Hct Hd. unfold c in *. rewrite (enveloped_short rnd0 c0 stale rnd r1 k iv ms d ds) by assumption. cbv zeta. clear.
  set (m := concat ms) in *. set (n := Nat.min 8 (length m)).
  assert (HL : forall K, length (encrypt (packed_sbox default_sbox) K iv) = 8%nat) by (intros; apply encrypt_length).
  assert (Hn : n = length (firstn 8 m)) by (unfold n; rewrite firstn_length; reflexivity). rewrite Hn.
  assert (Hl : (length (firstn 8 m) <= 8)%nat) by (rewrite firstn_length; lia).
  rewrite <- xorl_fix by (rewrite HL; exact Hl). split; intros E.
  - rewrite <- (firstn_skipn 8 m) in E at 3. apply app_inv_tail in E. exact E.
  - rewrite E. apply firstn_skipn.
Qed.
Lemma iv_key_short_used rnd0 c0 k0 iv0 sb e0 ms rnd r1 k iv e1 e d ds : mask_wf rnd0 -> bytesn 32 k0 -> bytesn 8 iv0 -> pieces ms ->
  mask_wf rnd -> bytesn 32 k -> bytesn 8 iv -> pieces (d :: ds) -> (length d < 8)%nat ->
  let used := fst (fst (updates (start rnd0 c0 k0 iv0 sb e0) ms)) in
  snd (updates (evp_init rnd (evp_init r1 used None (Some iv) e1) (Some k) None e) (d :: ds)) =
  cfb_resume e (encrypt (packed_sbox default_sbox) k) 0 iv (encrypt (packed_sbox default_sbox) k0 iv) (concat (d :: ds)).
Proof.
  intros Hr0 Hk0 Hiv0 Hms Hr Hk Hiv HF Hd used. destruct (updates_state rnd0 c0 k0 iv0 sb e0 ms Hr0 Hiv0 Hms) as (H1 & H2 & _).
  fold used in H1, H2. exact (iv_key_short used _ k0 _ _ rnd r1 k iv e1 e d ds H1 H2 Hk0 Hr Hk Hiv HF Hd).
Qed.
