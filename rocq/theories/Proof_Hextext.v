(** The textual S-box option. *)
From Coq Require Import Lia ZArith.
From Verif Require Import Base Lib Model_Gf2m Model_Compress Model_Pmeth Spec_Pmeth Proof_Asn1.

Lemma hex_digit_iff ch v : hex_digit ch = Some v <-> is_hex ch v.
Proof.
  unfold hex_digit, is_hex. destruct (N.leb_spec 48 ch), (N.leb_spec ch 57); cbn [andb]; [split; [intros [= <-]|intros H1; f_equal]; lia|..];
  (destruct (N.leb_spec 65 ch), (N.leb_spec ch 70); cbn [andb]; [split; [intros [= <-]|intros HH; f_equal]; lia|..]);
  (destruct (N.leb_spec 97 ch), (N.leb_spec ch 102); cbn [andb]; [split; [intros [= <-]|intros HH; f_equal]; lia|..]); (split; [discriminate|intros HH; lia]).
Qed.
Definition dig (a ch : N) : N := 16 * a + match hex_digit ch with Some d => d | None => 0 end.
Definition all_hex (s : list N) : Prop := Forall (fun ch => hex_digit ch <> None) s.
Definition stops (r : list N) : Prop := r = [] \/ hex_digit (hd 0 r) = None.
Lemma prefix_app p : forall r acc c, all_hex p -> stops r -> hex_prefix (p ++ r) acc c = (c + N.of_nat (length p), fold_left dig p acc).
Proof.
  induction p as [|ch p IH]; intros r acc c H S; cbn [app].
  - cbn. rewrite N.add_0_r. destruct r as [|x r]; [reflexivity|]. destruct S as [S|S]; [discriminate|]. cbn in S. cbn. rewrite S. reflexivity.
  - inversion H as [|? ? H1 H2]; subst. cbn [hex_prefix fold_left]. unfold dig at 2. destruct (hex_digit ch) as [d|]; [|contradiction]. rewrite IH by assumption. f_equal. cbn [length]. lia.
Qed.
Lemma prefix_split s : exists p r, s = p ++ r /\ all_hex p /\ stops r.
Proof.
  induction s as [|ch s [p [r [-> [H S]]]]]; [exists [], []; repeat split; [constructor|left; reflexivity]|].
  destruct (hex_digit ch) eqn:E.
  - exists (ch :: p), r. split; [reflexivity|]. split; [constructor; [congruence|exact H]|exact S].
  - exists [], (ch :: p ++ r). split; [reflexivity|]. split; [constructor|]. right. exact E.
Qed.
Lemma hex_text_fold t s : hex_text t s -> all_hex t /\ bytes s /\ length t = (2 * length s)%nat /\ forall acc, fold_left dig t acc = acc * 256 ^ N.of_nat (length s) + be_val s.
Proof.
  induction 1 as [|hi lo a b t s Ha Hb H [IH1 [IH2 [IH3 IH4]]]].
  - repeat split; try constructor. intros acc. cbn. unfold be_val. cbn. lia.
  - assert (Ea := Ha). assert (Eb := Hb). apply hex_digit_iff in Ea, Eb. split; [constructor; [congruence|constructor; [congruence|exact IH1]]|].
    assert (a < 16 /\ b < 16) by (unfold is_hex in *; lia).
    split; [constructor; [unfold is_byte; lia|exact IH2]|]. split; [cbn [length]; lia|]. intros acc. cbn [fold_left]. rewrite IH4. unfold dig. rewrite Ea, Eb.
    change (16 * a + b :: s) with ([16 * a + b] ++ s). rewrite be_val_app, app_length. unfold be_val at 2. cbn [rev app le_val]. cbn [length Nat.add]. rewrite Nat2N.inj_succ, N.pow_succ_r'. ring.
Qed.
Lemma hex_text_total : forall n t, all_hex t -> length t = (2 * n)%nat -> exists s, hex_text t s /\ length s = n.
Proof.
  induction n as [|n IH]; intros t H L.
  - destruct t; [|discriminate]. exists []. split; [constructor|reflexivity].
  - destruct t as [|hi [|lo t]]; cbn in L; try lia. inversion H as [|? ? H1 H2]; subst. inversion H2 as [|? ? H3 H4]; subst.
    destruct (IH t H4) as [s [Hs Ls]]; [lia|]. destruct (hex_digit hi) as [a|] eqn:Ea; [|contradiction]. destruct (hex_digit lo) as [b|] eqn:Eb; [|contradiction].
    exists (16 * a + b :: s). split; [|cbn; lia]. constructor; [apply hex_digit_iff, Ea|apply hex_digit_iff, Eb|exact Hs].
Qed.
Lemma stops_iff r : stops r <-> forall v, r <> [] -> ~ is_hex (hd 0 r) v.
Proof.
  unfold stops. split.
  - intros [->|H] v N1 N2; [contradiction|]. apply hex_digit_iff in N2. congruence.
  - intros H. destruct r as [|x r]; [left; reflexivity|]. right. cbn [hd] in *. destruct (hex_digit x) as [v|] eqn:E; [|reflexivity]. apply hex_digit_iff in E. destruct (H v); [discriminate|exact E].
Qed.
Lemma zero_bytes s : bytes s -> be_val s = 0 -> s = zeros (length s).
Proof.
  intros B E. apply (f_equal (be_bytes (length s))) in E. rewrite be_bytes_be_val in E by exact B. rewrite E, be_bytes_length. clear. unfold be_bytes, zeros.
  assert (forall n, le_bytes n 0 = repeat 0 n) as H by (induction n; cbn; [reflexivity|]; f_equal; exact IHn). rewrite H. clear. induction (length s) as [|n IH]; [reflexivity|].
  cbn. rewrite IH. clear. induction n; [reflexivity|]. cbn. f_equal. exact IHn.
Qed.
Lemma same_length (a : list N) : forall a' b b', a ++ b = a' ++ b' -> length a = length a' -> a = a' /\ b = b'.
Proof. induction a as [|x a IH]; intros [|x' a'] b b' E L; try discriminate; [auto|]. cbn in E. injection E as -> E. injection L as L. destruct (IH _ _ _ E L) as [-> ->]. auto. Qed.
Lemma sbox_option_iff value s : sbox_option value = Some s <->
  exists text rest, value = text ++ rest /\ length text = 128%nat /\ hex_text text s /\ (forall v, rest <> [] -> ~ is_hex (hd 0 rest) v) /\ s <> zeros 64.
Proof.
  unfold sbox_option, hex2bn.
  assert (NE : forall v : N, bn_encode v 64 = if 64 <? num_bytes v then None else Some (be_bytes 64 v, num_bytes v)) by reflexivity.
  assert (K : forall u, (let '(count, v) := hex_prefix u 0 0 in if count =? 0 then (0, false, 0) else (count + 0, false && negb (v =? 0), v)) = let '(count, v) := hex_prefix u 0 0 in if count =? 0 then (0, false, 0) else (count, false, v)) by (intros u; destruct (hex_prefix u 0 0) as [c v]; destruct (c =? 0); [reflexivity|]; rewrite N.add_0_r; reflexivity).
  destruct (N.eq_dec (hd 0 value) 45) as [E45|E45].
  - destruct value as [|x t]; [discriminate|]. cbn [hd] in E45. subst x. split.
    + destruct (hex_prefix t 0 0) as [c v] eqn:E. destruct (c =? 0); [discriminate|]. destruct (negb (c + 1 =? 128)); [discriminate|]. cbn [andb].
      destruct (N.eqb_spec v 0) as [->|Hv]; [cbn; discriminate|discriminate].
    + intros [text [rest [E [L [H _]]]]]. destruct text as [|x text]; [discriminate|]. injection E as <- _. apply hex_text_fold in H as [H _]. inversion H as [|? ? H1 H2]; subst. exfalso. apply H1. reflexivity.
  - assert (E : (let '(neg, s0) := match value with 45 :: t => (true, t) | _ => (false, value) end in let '(count, v) := hex_prefix s0 0 0 in if count =? 0 then (0, false, 0) else (count + (if neg : bool then 1 else 0), neg && negb (v =? 0), v)) = let '(count, v) := hex_prefix value 0 0 in if count =? 0 then (0, false, 0) else (count, false, v)).
    { rewrite <- K. destruct value as [|x t]; [reflexivity|]. cbn [hd] in E45.
      destruct x as [|q]; [reflexivity|]. do 6 (try reflexivity; destruct q as [q|q|]); try reflexivity; exfalso; apply E45; reflexivity. }
    rewrite E. clear E K. destruct (prefix_split value) as [p [r [-> [Hp S]]]]. rewrite prefix_app by assumption. rewrite N.add_0_l. split.
    + destruct (N.eqb_spec (N.of_nat (length p)) 0); [discriminate|]. destruct (N.eqb_spec (N.of_nat (length p)) 128) as [L|L]; [cbn [negb]|discriminate].
      destruct (hex_text_total 64 p Hp ltac:(lia)) as [s' [Hs Ls]]. destruct (hex_text_fold _ _ Hs) as [_ [B [_ F]]]. rewrite F. rewrite N.mul_0_l, N.add_0_l.
      rewrite NE. destruct (64 <? num_bytes (be_val s')); [discriminate|]. destruct (N.eqb_spec (num_bytes (be_val s')) 0) as [Z|Z]; [discriminate|].
      intros [= <-]. exists p, r. split; [reflexivity|]. split; [lia|]. replace 64%nat with (length s') by exact Ls. rewrite be_bytes_be_val by exact B. split; [exact Hs|]. split; [apply stops_iff; exact S|].
      intros E. rewrite Ls in E. apply Z. rewrite E. vm_compute. reflexivity.
    + intros [text [rest [E [L [H [S' NZ]]]]]]. apply stops_iff in S'. destruct (hex_text_fold _ _ H) as [Ht [B [Ls F]]].
      assert (p = text /\ r = rest) as [-> ->].
      { assert (X := prefix_app p r 0 0 Hp S). rewrite E in X. rewrite prefix_app in X by assumption. injection X as X _. rewrite !N.add_0_l in X. apply Nat2N.inj in X.
        apply same_length; [exact E|congruence]. }
      destruct (N.eqb_spec (N.of_nat (length text)) 0); [lia|]. replace (N.of_nat (length text) =? 128) with true by (symmetry; apply N.eqb_eq; lia). cbn [negb].
      rewrite F, N.mul_0_l, N.add_0_l, NE. assert (L64 : length s = 64%nat) by lia.
      assert (num_bytes (be_val s) <= 64). { apply nbytes_le. pose proof (be_val_lt s B) as X. rewrite L64 in X. exact X. }
      destruct (N.ltb_spec 64 (num_bytes (be_val s))); [lia|].
      destruct (N.eqb_spec (num_bytes (be_val s)) 0) as [Z|Z].
      * exfalso. apply NZ. rewrite <- L64. apply zero_bytes; [exact B|]. destruct (N.eq_dec (be_val s) 0) as [|X]; [assumption|]. apply nbytes_pos in X. lia.
      * f_equal. rewrite <- L64. apply be_bytes_be_val, B.
Qed.
Lemma junk_accepted : (exists value s, length value = 135%nat /\ sbox_option value = Some s) /\
  (exists value s, length value = 128%nat /\ hex_text value s /\ sbox_option value = None).
Proof.
  split.
  - exists (repeat 49 128 ++ [32; 106; 117; 110; 107; 33; 33]), (repeat 17 64). split; vm_compute; reflexivity.
  - exists (repeat 48 128), (repeat 0 64). split; [reflexivity|]. split; [|vm_compute; reflexivity].
    assert (H : forall n, hex_text (repeat 48 (2 * n)) (repeat 0 n)); [|exact (H 64%nat)].
    induction n as [|n IH]; [constructor|]. replace (2 * S n)%nat with (S (S (2 * n))) by lia. cbn [repeat]. change 0 with (16 * 0 + 0) at 1. constructor; [left; lia|left; lia|exact IH].
Qed.
