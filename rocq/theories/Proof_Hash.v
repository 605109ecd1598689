From Verif Require Import Base Lib Model_Gost89 Spec_Gost89 Proof_Gost89 Model_Params Spec_Params Proof_Params Model_Hash Spec_Hash.
From Coq Require Import Lia ZifyN ZifyNat ZifyBool.

(** ** integers and byte strings *)
Lemma add256_lxor a A : a < 256 -> a + 256 * A = N.lxor a (N.shiftl A 8).
Proof.
  intros Ha. pose proof (land_shiftl_0 a A 8 Ha) as H0.
  rewrite <- N.add_nocarry_lxor by assumption. rewrite N.shiftl_mul_pow2. lia.
Qed.
Lemma xorl_val a b : bytes a -> bytes b -> length a = length b -> le_val (xorl a b) = N.lxor (le_val a) (le_val b).
Proof.
  intros Ha. revert b. induction Ha as [|x a Hx Ha IH]; intros b Hb Hl; destruct Hb as [|y b Hy Hb]; try discriminate; [reflexivity|].
  cbn [xorl le_val]. rewrite IH by (auto; cbn in Hl; lia).
  unfold is_byte in *. rewrite !add256_lxor; auto.
  2:{ apply (lxor_lt x y 8); assumption. }
  rewrite N.shiftl_lxor. rewrite !N.lxor_assoc. f_equal. rewrite <- !N.lxor_assoc. f_equal. apply N.lxor_comm.
Qed.
Lemma pow256 n : 256 ^ n = 2 ^ (8 * n).
Proof. change 256 with (2 ^ 8). rewrite <- N.pow_mul_r. reflexivity. Qed.
Lemma le_val_div n l : bytes l -> le_val l / 256 ^ N.of_nat n = le_val (skipn n l).
Proof.
  intros Hb. destruct (Nat.le_gt_cases n (length l)) as [Hn|Hn].
  - rewrite <- (firstn_skipn n l) at 1. rewrite le_val_app, firstn_length, Nat.min_l by assumption.
    rewrite N.mul_comm, N.div_add by (apply N.pow_nonzero; lia).
    rewrite N.div_small; [reflexivity|].
    pose proof (le_val_lt _ (bytes_firstn n _ Hb)) as H. rewrite firstn_length, Nat.min_l in H by assumption. exact H.
  - rewrite skipn_all2 by lia. apply N.div_small.
    eapply N.lt_le_trans; [apply le_val_lt, Hb|]. apply N.pow_le_mono_r; lia.
Qed.
Lemma le_val_mod n l : bytes l -> le_val l mod 256 ^ N.of_nat n = le_val (firstn n l).
Proof.
  intros Hb. destruct (Nat.le_gt_cases n (length l)) as [Hn|Hn].
  - rewrite <- (firstn_skipn n l) at 1. rewrite le_val_app, firstn_length, Nat.min_l by assumption.
    rewrite N.mul_comm, N.mod_add by (apply N.pow_nonzero; lia).
    apply N.mod_small.
    pose proof (le_val_lt _ (bytes_firstn n _ Hb)) as H. rewrite firstn_length, Nat.min_l in H by assumption. exact H.
  - rewrite firstn_all2 by lia. apply N.mod_small.
    eapply N.lt_le_trans; [apply le_val_lt, Hb|]. apply N.pow_le_mono_r; lia.
Qed.
Lemma part_val k i l : bytes l -> part (8 * N.of_nat k) (N.of_nat i) (le_val l) = le_val (firstn k (skipn (k * i) l)).
Proof.
  intros Hb. unfold part.
  replace (8 * N.of_nat k * N.of_nat i) with (8 * N.of_nat (k * i)) by lia.
  rewrite <- !pow256, le_val_div, le_val_mod by (auto using bytes_skipn). reflexivity.
Qed.

(** ** A *)
Lemma split32 w : bytesn 32 w -> exists a b c d, w = a ++ b ++ c ++ d /\ bytesn 8 a /\ bytesn 8 b /\ bytesn 8 c /\ bytesn 8 d.
Proof.
  intros [Hb Hl]. exists (firstn 8 w), (firstn 8 (skipn 8 w)), (firstn 8 (skipn 16 w)), (skipn 24 w).
  split.
  - pose proof (skipn_add 8 8 w) as E1. pose proof (skipn_add 16 8 w) as E2. cbn [Nat.add] in E1, E2. rewrite E2, E1, !firstn_skipn. reflexivity.
  - repeat split; auto using bytes_firstn, bytes_skipn; rewrite ?firstn_length, ?skipn_length; lia.
Qed.
Lemma app8 {A} (a b : list A) : length a = 8%nat -> firstn 8 (a ++ b) = a /\ skipn 8 (a ++ b) = b.
Proof.
  intros H. rewrite <- H. split; [rewrite firstn_app, firstn_all, Nat.sub_diag; cbn; apply app_nil_r|].
  rewrite skipn_app, skipn_all, Nat.sub_diag. reflexivity.
Qed.
Lemma parts_64 a b c d : bytesn 8 a -> bytesn 8 b -> bytesn 8 c -> bytesn 8 d ->
  let X := le_val (a ++ b ++ c ++ d) in
  part 64 0 X = le_val a /\ part 64 1 X = le_val b /\ part 64 2 X = le_val c /\ part 64 3 X = le_val d.
Proof.
  intros [Ha La] [Hb Lb] [Hc Lc] [Hd Ld] X. subst X.
  pose proof (fun i => part_val 8 i (a ++ b ++ c ++ d) ltac:(repeat apply bytes_app; assumption)) as P.
  assert (S1 : skipn 8 (a ++ b ++ c ++ d) = b ++ c ++ d) by (apply app8; assumption).
  assert (S2 : skipn 16 (a ++ b ++ c ++ d) = c ++ d).
  { pose proof (skipn_add 8 8 (a ++ b ++ c ++ d)) as E. cbn [Nat.add] in E. rewrite E, S1. apply app8; assumption. }
  assert (S3 : skipn 24 (a ++ b ++ c ++ d) = d).
  { pose proof (skipn_add 16 8 (a ++ b ++ c ++ d)) as E. cbn [Nat.add] in E. rewrite E, S2. apply app8; assumption. }
  pose proof (P 0%nat) as P0. pose proof (P 1%nat) as P1. pose proof (P 2%nat) as P2. pose proof (P 3%nat) as P3. clear P.
  cbn [Nat.mul Nat.add] in *. change (8 * N.of_nat 8) with 64 in *.
  change (N.of_nat 0) with 0 in *; change (N.of_nat 1) with 1 in *; change (N.of_nat 2) with 2 in *; change (N.of_nat 3) with 3 in *.
  rewrite P0, P1, P2, P3, S1, S2, S3. change (skipn 0 ?l) with l.
  repeat split; f_equal; try (apply app8; assumption). apply firstn_all2. lia.
Qed.
Lemma circle_xor8_ok w : bytesn 32 w -> bytesn 32 (circle_xor8 w) /\ le_val (circle_xor8 w) = trA (le_val w).
Proof.
  intros Hw. destruct (split32 w Hw) as (a & b & c & d & -> & Ha & Hb & Hc & Hd).
  assert (E : circle_xor8 (a ++ b ++ c ++ d) = b ++ c ++ d ++ xorl a b).
  { unfold circle_xor8. cbv zeta.
    destruct (app8 a (b ++ c ++ d) (proj2 Ha)) as [-> ->].
    replace (firstn 24 (b ++ c ++ d)) with (b ++ c ++ d).
    2:{ symmetry. apply firstn_all2. rewrite !app_length. destruct Hb as [_ ->], Hc as [_ ->], Hd as [_ ->]. lia. }
    destruct (app8 b (c ++ d) (proj2 Hb)) as [-> _]. rewrite <- !app_assoc. reflexivity. }
  rewrite E. pose proof (xorl_bytesn 8 a b Ha Hb) as Hx. split.
  - destruct Hb as [Hb Lb], Hc as [Hc Lc], Hd as [Hd Ld], Hx as [Hx Lx]. split; [repeat apply bytes_app; assumption|].
    rewrite !app_length. lia.
  - unfold trA. destruct (parts_64 a b c d Ha Hb Hc Hd) as (-> & -> & -> & ->).
    destruct Ha as [Ha La], Hb as [Hb Lb], Hc as [Hc Lc], Hd as [Hd Ld].
    rewrite !le_val_app, xorl_val, Lb, Lc, Ld by (auto; lia).
    generalize (N.lxor (le_val a) (le_val b)). intros x. change (256 ^ N.of_nat 8) with (2 ^ 64).
    change (2 ^ 192) with (2 ^ 64 * 2 ^ 64 * 2 ^ 64). change (2 ^ 128) with (2 ^ 64 * 2 ^ 64). generalize (2 ^ 64). intros. ring.
Qed.

(** ** P *)
Lemma le_val_sum (g : nat -> N) n : forall s,
  le_val (map g (seq s n)) * 2 ^ (8 * N.of_nat s) = fold_right (fun i acc => g i * 2 ^ (8 * N.of_nat i) + acc) 0 (seq s n).
Proof.
  induction n as [|n IH]; intros s; cbn [seq map le_val fold_right]; [lia|].
  rewrite <- IH. replace (2 ^ (8 * N.of_nat (S s))) with (256 * 2 ^ (8 * N.of_nat s)); [ring|].
  change 256 with (2 ^ 8). rewrite <- N.pow_add_r. f_equal. lia.
Qed.
Lemma fold_right_ext_in {A B} (f g : A -> B -> B) l : (forall x a, In x l -> f x a = g x a) -> forall b, fold_right f b l = fold_right g b l.
Proof. intros H b. induction l as [|x l IH]; [reflexivity|]. cbn. rewrite IH; [apply H; left; reflexivity|]. intros; apply H; right; assumption. Qed.
Lemma firstn1_nth l i : (i < length l)%nat -> le_val (firstn 1 (skipn i l)) = nth i l 0.
Proof. revert i. induction l as [|x l IH]; intros i Hi; [cbn in Hi; lia|]. destruct i; [cbn; lia|]. cbn in Hi |- *. apply IH. lia. Qed.
Lemma swap_bytes_ok w : bytesn 32 w -> bytesn 32 (swap_bytes w) /\ le_val (swap_bytes w) = trP (le_val w).
Proof.
  intros [Hb Hl]. unfold swap_bytes. split.
  - split; [|rewrite map_length, seq_length; reflexivity].
    apply Forall_forall. intros x Hx. apply in_map_iff in Hx. destruct Hx as (n & <- & Hn). apply in_seq in Hn.
    unfold bytes in Hb. rewrite Forall_forall in Hb. apply Hb, nth_In. rewrite Hl. 
    pose proof (Nat.mod_upper_bound n 4). pose proof (Nat.div_lt_upper_bound n 4 8). lia.
  - pose proof (le_val_sum (fun n => nth (8 * (n mod 4) + n / 4) w 0) 32 0) as H.
    change (2 ^ (8 * N.of_nat 0)) with 1 in H. rewrite N.mul_1_r in H. rewrite H. unfold trP.
    apply fold_right_ext_in. intros n acc Hn. apply in_seq in Hn. f_equal. f_equal.
    assert (Hphi : phi (N.of_nat n) = N.of_nat (8 * (n mod 4) + n / 4)).
    { do 32 (destruct n as [|n]; [reflexivity|]). lia. }
    rewrite Hphi. pose proof (part_val 1 (8 * (n mod 4) + n / 4) w Hb) as P. change (8 * N.of_nat 1) with 8 in P.
    rewrite P, Nat.mul_1_l, firstn1_nth; [reflexivity|]. rewrite Hl.
    pose proof (Nat.mod_upper_bound n 4). pose proof (Nat.div_lt_upper_bound n 4 8). lia.
Qed.

(** ** the constant *)
Definition c3_bytes : list N := map (fun n => if existsb (Nat.eqb n) flipped then 255 else 0) (seq 0 32).
Lemma lxor_255 b : b < 256 -> N.lxor b 255 = 255 - b.
Proof.
  intros H. assert (A : forallb (fun n => N.lxor (N.of_nat n) 255 =? 255 - N.of_nat n) (seq 0 256) = true) by (vm_compute; reflexivity).
  rewrite forallb_forall in A. specialize (A (N.to_nat b)). rewrite N2Nat.id in A. apply N.eqb_eq, A, in_seq. lia.
Qed.
Lemma xorl_map (g h : nat -> N) l : xorl (map g l) (map h l) = map (fun n => N.lxor (g n) (h n)) l.
Proof. induction l as [|x l IH]; [reflexivity|]. cbn. rewrite IH. reflexivity. Qed.
Lemma map_nth_seq {A} (l : list A) d : map (fun n => nth n l d) (seq 0 (length l)) = l.
Proof.
  apply nth_ext with (d := d) (d' := d); [rewrite map_length, seq_length; reflexivity|].
  intros i Hi. rewrite map_length, seq_length in Hi. apply (nth_map_seq (fun n => nth n l d)), Hi.
Qed.
Lemma complement_ok u : bytesn 32 u -> bytesn 32 (complement u) /\ le_val (complement u) = N.lxor (le_val u) C3.
Proof.
  intros [Hb Hl].
  assert (E : complement u = xorl u c3_bytes).
  { rewrite <- (map_nth_seq u 0) at 2. rewrite Hl. unfold c3_bytes. rewrite xorl_map. unfold complement. apply map_ext_in.
    intros n Hn. apply in_seq in Hn. destruct (existsb (Nat.eqb n) flipped); [|rewrite N.lxor_0_r; reflexivity].
    symmetry. apply lxor_255. unfold bytes in Hb. rewrite Forall_forall in Hb. apply Hb, nth_In. lia. }
  assert (Hc : bytesn 32 c3_bytes) by (split; [repeat constructor|reflexivity]).
  rewrite E. split; [apply xorl_bytesn; [split; assumption|exact Hc]|].
  rewrite xorl_val; [|assumption|apply Hc|rewrite Hl; symmetry; apply Hc]. f_equal.
Qed.

(** ** psi *)
Lemma pair_val l i : bytes l -> (2 * i + 1 < length l)%nat ->
  part 16 (N.of_nat i) (le_val l) = le_val [nth (2 * i) l 0; nth (2 * i + 1) l 0].
Proof.
  intros Hb Hi. pose proof (part_val 2 i l Hb) as P. change (8 * N.of_nat 2) with 16 in P. rewrite P. f_equal.
  revert Hi. generalize (2 * i)%nat. clear. intros n. revert l. induction n as [|n IH]; intros l Hi.
  - destruct l as [|x [|y l]]; cbn in *; try lia. reflexivity.
  - destruct l as [|x l]; [cbn in Hi; lia|]. cbn [skipn nth Nat.add]. apply IH. cbn in Hi. lia.
Qed.
Lemma bytes_nth l i : bytes l -> is_byte (nth i l 0).
Proof. intros H. destruct (nth_in_or_default i l 0) as [Hin| ->]; [|reflexivity]. unfold bytes in H. rewrite Forall_forall in H. apply H, Hin. Qed.
Lemma lxor_byte a b : is_byte a -> is_byte b -> is_byte (N.lxor a b).
Proof. intros Ha Hb. apply (lxor_lt a b 8); assumption. Qed.
Lemma transform_3_ok d : bytesn 32 d -> bytesn 32 (transform_3 d) /\ le_val (transform_3 d) = psi (le_val d).
Proof.
  intros [Hb Hl]. unfold transform_3. cbv zeta.
  set (x := N.lxor (N.lxor (N.lxor (N.lxor (N.lxor (nth 0 d 0) (nth 2 d 0)) (nth 4 d 0)) (nth 6 d 0)) (nth 24 d 0)) (nth 30 d 0)).
  set (y := N.lxor (N.lxor (N.lxor (N.lxor (N.lxor (nth 1 d 0) (nth 3 d 0)) (nth 5 d 0)) (nth 7 d 0)) (nth 25 d 0)) (nth 31 d 0)).
  assert (Hx : is_byte x) by (repeat apply lxor_byte; apply bytes_nth, Hb).
  assert (Hy : is_byte y) by (repeat apply lxor_byte; apply bytes_nth, Hb).
  assert (E1 : N.land (N.lor x (N.shiftl y 8)) 255 = x).
  { rewrite (lor_add x y 8 Hx), land_255. unfold is_byte in *. change (2 ^ 8) with 256. rewrite N.mod_add by lia. apply N.mod_small, Hx. }
  assert (E2 : w8 (N.shiftr (N.lor x (N.shiftl y 8)) 8) = y).
  { rewrite (lor_add x y 8 Hx), N.shiftr_div_pow2. unfold is_byte, w8 in *. change (2 ^ 8) with 256.
    rewrite N.div_add, N.div_small by lia. apply N.mod_small, Hy. }
  rewrite E1, E2. replace (firstn 30 (skipn 2 d)) with (skipn 2 d) by (symmetry; apply firstn_all2; rewrite skipn_length; lia).
  split.
  - split; [apply bytes_app; [apply bytes_skipn, Hb|repeat constructor; assumption]|rewrite app_length, skipn_length; cbn [length]; lia].
  - rewrite le_val_app, skipn_length, Hl. change (256 ^ N.of_nat (32 - 2)) with (2 ^ 240).
    unfold psi. rewrite <- (le_val_div 2 d Hb). change (256 ^ N.of_nat 2) with (2 ^ 16).
    pose proof (fun i H => pair_val d i Hb H) as P. rewrite Hl in P.
    pose proof (P 0%nat ltac:(lia)) as P0. pose proof (P 1%nat ltac:(lia)) as P1. pose proof (P 2%nat ltac:(lia)) as P2.
    pose proof (P 3%nat ltac:(lia)) as P3. pose proof (P 12%nat ltac:(lia)) as P12. pose proof (P 15%nat ltac:(lia)) as P15.
    change (N.of_nat 0) with 0 in P0; change (N.of_nat 1) with 1 in P1; change (N.of_nat 2) with 2 in P2; change (N.of_nat 3) with 3 in P3;
      change (N.of_nat 12) with 12 in P12; change (N.of_nat 15) with 15 in P15.
    rewrite P0, P1, P2, P3, P12, P15. cbn [Nat.mul Nat.add].
    rewrite <- !xorl_val; try reflexivity; try (repeat apply xorl_bytes; repeat constructor; apply bytes_nth, Hb).
    cbn [xorl]. fold x y. ring.
Qed.
Lemma iter_ok n d : bytesn 32 d -> bytesn 32 (iter n transform_3 d) /\ le_val (iter n transform_3 d) = N.iter (N.of_nat n) psi (le_val d).
Proof.
  revert d. induction n as [|n IH]; intros d Hd; [split; [exact Hd|reflexivity]|].
  destruct (transform_3_ok d Hd) as [H1 H2]. cbn [iter]. destruct (IH _ H1) as [A B]. split; [exact A|].
  rewrite B, H2, Nat2N.inj_succ, N.iter_succ_r. reflexivity.
Qed.

(** ** sums *)
Lemma add_blocks_ok l : forall r c, bytes l -> bytes r -> length l = length r -> c <= 1 ->
  bytesn (length l) (fst (add_blocks l r c)) /\
  le_val (fst (add_blocks l r c)) = (le_val l + le_val r + c) mod 256 ^ N.of_nat (length l).
Proof.
  induction l as [|x l IH]; intros r c Hl Hr Hlen Hc; destruct r as [|y r]; try discriminate.
  - split; [split; [constructor|reflexivity]|]. cbn [add_blocks fst le_val length]. change (256 ^ N.of_nat 0) with 1. rewrite N.mod_1_r. reflexivity.
  - inversion Hl as [|? ? Hx Hl' E1]; subst. inversion Hr as [|? ? Hy Hr' E2]; subst. unfold is_byte in Hx, Hy.
    cbn [add_blocks]. set (sum := x + y + c).
    assert (Hs : N.shiftr sum 8 = sum / 256) by (rewrite N.shiftr_div_pow2; reflexivity).
    assert (Hc' : N.shiftr sum 8 <= 1) by (rewrite Hs; subst sum; apply N.lt_succ_r, N.div_lt_upper_bound; lia).
    specialize (IH r (N.shiftr sum 8) Hl' Hr' ltac:(cbn in Hlen; lia) Hc').
    destruct (add_blocks l r (N.shiftr sum 8)) as [t cc]. cbn [fst] in *. destruct IH as [[A1 A2] B].
    split.
    + split; [constructor; [rewrite land_255; apply N.mod_lt; lia|exact A1]|cbn [length]; lia].
    + cbn [le_val length]. rewrite B, land_255, Hs, Nat2N.inj_succ, N.pow_succ_r'.
      set (P := 256 ^ N.of_nat (length l)). assert (HP : P <> 0) by (apply N.pow_nonzero; lia).
      replace (x + 256 * le_val l + (y + 256 * le_val r) + c) with (sum + 256 * (le_val l + le_val r)) by (subst sum; ring).
      rewrite N.mod_mul_r by lia.
      replace ((sum + 256 * (le_val l + le_val r)) mod 256) with (sum mod 256) by (rewrite N.mul_comm, N.mod_add by lia; reflexivity).
      replace ((sum + 256 * (le_val l + le_val r)) / 256) with (le_val l + le_val r + sum / 256); [reflexivity|].
      rewrite N.mul_comm, N.div_add by lia. lia.
Qed.

(** ** step *)
Lemma has_sbox_nomask S c k : has_sbox S c -> has_sbox S (gost_key_nomask c k).
Proof. apply (loaded_has_sbox_key S (zeros 8) c k). Qed.
Lemma sub_bytesn l i n m : bytesn m l -> (i + n <= m)%nat -> bytesn n (sub_bytes l i n).
Proof. intros [Hb Hl] H. split; [apply bytes_firstn, bytes_skipn, Hb|]. unfold sub_bytes. rewrite firstn_length, skipn_length. lia. Qed.
Lemma enc_val S c K k i H : has_sbox S c -> bytesn 32 K -> le_val K = k -> bytesn 32 H -> (i < 4)%nat ->
  let s := gostcrypt (gost_key_nomask c K) (sub_bytes H (8 * i) 8) in
  bytesn 8 s /\ le_val s = E64 S k (part 64 (N.of_nat i) (le_val H)).
Proof.
  intros HS HK <- HH Hi s. subst s. split; [apply gostcrypt_bytesn|].
  rewrite (gostcrypt_spec S K) by (try apply sub_bytesn with (m := 32%nat); auto using gost_key_nomask_loaded; lia).
  unfold E64. rewrite le_bytes_le_val_n by assumption.
  pose proof (part_val 8 i H (proj1 HH)) as P. change (8 * N.of_nat 8) with 64 in P. rewrite P.
  change (firstn 8 (skipn (8 * i) H)) with (sub_bytes H (8 * i) 8).
  rewrite le_bytes_le_val_n by (apply sub_bytesn with (m := 32%nat); auto; lia). reflexivity.
Qed.
#[local] Opaque gostcrypt gost_key_nomask encrypt.
Lemma hash_step_ok S c H M : has_sbox S c -> bytesn 32 H -> bytesn 32 M ->
  has_sbox S (fst (hash_step c H M)) /\ bytesn 32 (snd (hash_step c H M)) /\
  le_val (snd (hash_step c H M)) = chi S (le_val H) (le_val M).
Proof.
  intros HS HH HM. unfold hash_step, gost_enc_with_key. cbv beta iota zeta.
  destruct (circle_xor8_ok _ HH) as [U2 U2v]. destruct (circle_xor8_ok _ HM) as [V1 V1v].
  destruct (circle_xor8_ok _ V1) as [V2 V2v]. rewrite V1v in V2v.
  destruct (circle_xor8_ok _ U2) as [U3a U3av]. rewrite U2v in U3av.
  destruct (complement_ok _ U3a) as [U3 U3v]. rewrite U3av in U3v.
  destruct (circle_xor8_ok _ V2) as [V3a V3av]. rewrite V2v in V3av.
  destruct (circle_xor8_ok _ V3a) as [V3 V3v]. rewrite V3av in V3v.
  destruct (circle_xor8_ok _ U3) as [U4 U4v]. rewrite U3v in U4v.
  destruct (circle_xor8_ok _ V3) as [V4a V4av]. rewrite V3v in V4av.
  destruct (circle_xor8_ok _ V4a) as [V4 V4v]. rewrite V4av in V4v.
  clear V1 V1v U3a U3av V3a V3av V4a V4av.
  set (u2 := circle_xor8 H) in *. set (v2 := circle_xor8 (circle_xor8 M)) in *.
  set (u3 := complement (circle_xor8 u2)) in *. set (v3 := circle_xor8 (circle_xor8 v2)) in *.
  set (u4 := circle_xor8 u3) in *. set (v4 := circle_xor8 (circle_xor8 v3)) in *. clearbody u2 v2 u3 v3 u4 v4.
  assert (KK : forall u v a b, bytesn 32 u -> bytesn 32 v -> le_val u = a -> le_val v = b ->
     bytesn 32 (swap_bytes (xorl u v)) /\ le_val (swap_bytes (xorl u v)) = trP (N.lxor a b)).
  { intros u v a b Hu Hv <- <-. destruct (swap_bytes_ok _ (xorl_bytesn 32 u v Hu Hv)) as [A B]. split; [exact A|].
    rewrite B, xorl_val; [reflexivity|apply Hu|apply Hv|]. destruct Hu as [_ ->], Hv as [_ ->]. reflexivity. }
  destruct (KK H M _ _ HH HM eq_refl eq_refl) as [K1 K1v].
  destruct (KK u2 v2 _ _ U2 V2 U2v V2v) as [K2 K2v].
  destruct (KK u3 v3 _ _ U3 V3 U3v V3v) as [K3 K3v].
  destruct (KK u4 v4 _ _ U4 V4 U4v V4v) as [K4 K4v]. clear KK.
  pose proof (has_sbox_nomask S c (swap_bytes (xorl H M)) HS) as HS1.
  pose proof (enc_val S _ _ _ 0 H HS K1 K1v HH ltac:(lia)) as [s0b s0v].
  set (c1 := gost_key_nomask c (swap_bytes (xorl H M))) in *.
  pose proof (has_sbox_nomask S c1 (swap_bytes (xorl u2 v2)) HS1) as HS2.
  pose proof (enc_val S _ _ _ 1 H HS1 K2 K2v HH ltac:(lia)) as [s1b s1v].
  set (c2 := gost_key_nomask c1 (swap_bytes (xorl u2 v2))) in *.
  pose proof (has_sbox_nomask S c2 (swap_bytes (xorl u3 v3)) HS2) as HS3.
  pose proof (enc_val S _ _ _ 2 H HS2 K3 K3v HH ltac:(lia)) as [s2b s2v].
  set (c3 := gost_key_nomask c2 (swap_bytes (xorl u3 v3))) in *.
  pose proof (has_sbox_nomask S c3 (swap_bytes (xorl u4 v4)) HS3) as HS4.
  pose proof (enc_val S _ _ _ 3 H HS3 K4 K4v HH ltac:(lia)) as [s3b s3v].
  set (c4 := gost_key_nomask c3 (swap_bytes (xorl u4 v4))) in *.
  cbn [Nat.mul Nat.add] in s0b, s0v, s1b, s1v, s2b, s2v, s3b, s3v.
  set (s0 := gostcrypt c1 _) in *. set (s1 := gostcrypt c2 _) in *. set (s2 := gostcrypt c3 _) in *. set (s3 := gostcrypt c4 _) in *.
  clearbody s0 s1 s2 s3. cbn [fst snd]. split; [exact HS4|].
  assert (HX : bytesn 32 (s0 ++ s1 ++ s2 ++ s3)).
  { destruct s0b, s1b, s2b, s3b. split; [repeat apply bytes_app; assumption|rewrite !app_length; lia]. }
  destruct (iter_ok 12 _ HX) as [A1 A1v]. set (t1 := iter 12 _ _) in *. clearbody t1.
  pose proof (xorl_bytesn 32 _ _ A1 HM) as A2.
  assert (A2v : le_val (xorl t1 M) = N.lxor (le_val M) (le_val t1)).
  { rewrite N.lxor_comm. apply xorl_val; [apply A1|apply HM|]. destruct A1 as [_ ->], HM as [_ ->]. reflexivity. }
  destruct (transform_3_ok _ A2) as [A3 A3v]. rewrite A2v in A3v. set (t2 := transform_3 _) in *. clearbody t2.
  pose proof (xorl_bytesn 32 _ _ A3 HH) as A4.
  assert (A4v : le_val (xorl t2 H) = N.lxor (le_val H) (le_val t2)).
  { rewrite N.lxor_comm. apply xorl_val; [apply A3|apply HH|]. destruct A3 as [_ ->], HH as [_ ->]. reflexivity. }
  destruct (iter_ok 61 _ A4) as [A5 A5v]. split; [exact A5|]. rewrite A5v, A4v, A3v, A1v.
  unfold chi, keys4. cbv beta iota zeta.
  change (N.of_nat 0) with 0 in *; change (N.of_nat 1) with 1 in *; change (N.of_nat 2) with 2 in *; change (N.of_nat 3) with 3 in *.
  rewrite <- s0v, <- s1v, <- s2v, <- s3v.
  change (N.of_nat 61) with 61. change (N.of_nat 12) with 12. do 6 f_equal.
  destruct s0b as [_ l0], s1b as [_ l1], s2b as [_ l2], s3b as [_ l3].
  rewrite !le_val_app, l0, l1, l2. change (256 ^ N.of_nat 8) with (2 ^ 64).
  change (2 ^ 192) with (2 ^ 64 * 2 ^ 64 * 2 ^ 64). change (2 ^ 128) with (2 ^ 64 * 2 ^ 64). generalize (2 ^ 64). intros. ring.
Qed.
