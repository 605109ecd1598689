(** Cipher parameters read from bytes. *)
From Coq Require Import List Lia ZArith.
Import ListNotations.
From Verif Require Import Base Lib Model_Gost89 Model_Params Model_Cipher Model_Asn1 Model_P8 Model_CipherMem Spec_Cipher Spec_Asn1 Spec_Ber Spec_P8 Proof_Cipher Proof_CipherApi Proof_Asn1 Proof_Ber Proof_P8.
Open Scope N_scope.

Lemma nth_hd (l : list N) k d : nth k l d = hd d (skipn k l).
Proof. revert l. induction k as [|k IH]; intros [|x l]; cbn; auto. Qed.
Lemma bytes_bit b : b < 64 -> N.testbit b 5 = true -> b mod 32 = 16 -> b = 48.
Proof.
  intros H T M. assert (X : forallb (fun k => let b := N.of_nat k in implb (N.testbit b 5 && (b mod 32 =? 16)) (b =? 48)) (seq 0 64) = true) by (vm_compute; reflexivity).
  rewrite forallb_forall in X. specialize (X (N.to_nat b)). rewrite in_seq, N2Nat.id in X. specialize (X ltac:(lia)). cbn beta zeta in X. rewrite T, M in X. cbn in X. apply N.eqb_eq, X.
Qed.
Lemma be_val_big x y z : 4 <= x -> 1024 <= be_val (x :: y :: z).
Proof.
  intros H. change (x :: y :: z) with (([x] ++ [y]) ++ z). rewrite !be_val_app. change (256 ^ N.of_nat (length [y])) with 256. change (be_val [x]) with (x + 256 * 0).
  assert (0 < 256 ^ N.of_nat (length z)) by (apply N.neq_0_lt_0, N.pow_nonzero; discriminate). nia.
Qed.
Lemma find_end_short f k l r : find_end f k l = Some r -> (length r + 2 <= length l)%nat.
Proof.
  revert k l. induction f as [|f IH]; intros k [|x l] E; cbn [find_end] in E; try discriminate. destruct (is_eoc (x :: l)) eqn:Q.
  - destruct l as [|y l]; [destruct x; discriminate|]. cbn [skipn] in E. destruct k as [|k]; [injection E as <-; cbn; lia|]. apply IH in E. cbn [length]. lia.
  - destruct (get_header (x :: l)) as [[h t]|] eqn:Eh; [|discriminate].
    assert (Lt : (length t <= length l)%nat).
    { unfold get_header in Eh. destruct (if x mod 32 =? 31 then get_long_tag 0 l else Some (x mod 32, l)) as [[tg t1]|] eqn:E1; [|discriminate].
      assert (L1 : (length t1 <= length l)%nat).
      { destruct (x mod 32 =? 31); [|injection E1 as _ <-; lia]. clear -E1. revert E1. generalize 0. induction l as [|y l IH]; intros acc E1; cbn [get_long_tag] in E1; [discriminate|].
        destruct (y <? 128); [injection E1 as _ <-; cbn; lia|]. destruct (_ <? _) in E1; [discriminate|]. apply IH in E1. cbn. lia. }
      destruct (get_len t1) as [[n t2]|] eqn:E2; [|discriminate].
      assert (L2 : (length t2 <= length t1)%nat).
      { unfold get_len in E2. destruct t1 as [|y t1]; [discriminate|]. destruct (y <? 128); [injection E2 as _ <-; cbn; lia|]. cbv zeta in E2. destruct (_ =? _)%nat in E2; [injection E2 as _ <-; cbn; lia|].
        destruct (_ <? _)%nat in E2; [discriminate|]. destruct (_ <=? _) in E2; [discriminate|]. injection E2 as _ <-. rewrite skipn_length. cbn. lia. }
      cbv zeta in Eh. destruct n as [n|]; [destruct (_ <? _) in Eh; [discriminate|]|cbn [h_cst] in Eh; destruct (N.testbit x 5); [|discriminate]]; injection Eh as _ <-; lia. }
    destruct (h_len h) as [n|]; apply IH in E; rewrite ?skipn_length in E; cbn [length]; lia.
Qed.
Lemma find_end_string f k n t r : n < 128 -> find_end (S f) k (4 :: n :: t) = Some r -> n <= N.of_nat (length t) /\ find_end f k (skipn (N.to_nat n) t) = Some r.
Proof.
  intros Hn E. cbn [find_end] in E. change (is_eoc (4 :: n :: t)) with false in E. cbn match in E.
  assert (H : get_header (4 :: n :: t) = if N.of_nat (length t) <? n then None else Some (HEADER 4 0 false (Some n), t)).
  { unfold get_header. change (4 mod 32 =? 31) with false. cbn match. unfold get_len. destruct (N.ltb_spec n 128); [|lia]. reflexivity. }
  rewrite H in E. destruct (N.ltb_spec (N.of_nat (length t)) n); [discriminate|]. split; [lia|exact E].
Qed.
Lemma seventy_six b n1 u0 u1 u2 u3 u4 u5 u6 u7 rest a r l : b < 256 ->
  l = b :: n1 :: 4 :: 8 :: u0 :: u1 :: u2 :: u3 :: u4 :: u5 :: u6 :: u7 :: 4 :: 64 :: rest ->
  get_any l = Some (a, r) -> an_type a = Some 16 -> length (an_data a) = 78%nat -> b = 48 /\ n1 = 76 /\ an_data a = firstn 78 l /\ r = skipn 78 l /\ (78 <= length l)%nat.
Proof.
  intros Hb El E T L. assert (Ll : length l = (14 + length rest)%nat) by (rewrite El; reflexivity). unfold get_any in E. destruct (get_header l) as [[h t]|] eqn:Eh; [|discriminate]. cbv zeta in E.
  destruct (N.eqb_spec (h_class h) 0) as [Cl|Cl].
  2: { match type of E with match ?X with _ => _ end = _ => destruct X; [|discriminate] end. injection E as <- _. discriminate. }
  destruct (kept (Some (h_tag h))) eqn:K.
  2: { destruct (h_cst h && never_cst (h_tag h)); [discriminate|]. destruct (get_content h t) as [[c r']|]; [|discriminate]. destruct (c2i_ok (Some (h_tag h)) c); [|discriminate]. injection E as <- _. cbn [an_type] in T. injection T as T. rewrite T in K. discriminate. }
  destruct (h_cst h) eqn:Ec; [|discriminate].
  match type of E with match ?X with _ => _ end = _ => destruct X as [r'|] eqn:Er; [|discriminate] end. injection E as <- <-. cbn [an_type an_data] in T, L |- *. injection T as T.
  rewrite firstn_length, Ll in L.
  rewrite El in Eh. unfold get_header in Eh. destruct (N.eqb_spec (b mod 32) 31) as [Q|Q].
  - exfalso. cbn [get_long_tag] in Eh. destruct (N.ltb_spec n1 128) as [Q1|Q1].
    + cbn [get_len] in Eh. change (4 <? 128) with true in Eh. cbv zeta in Eh. cbn match in Eh. destruct (_ <? _) in Eh; [discriminate|]. injection Eh as <- <-. cbn [h_len] in Er. apply (f_equal (fun x => match x with Some x => length x | None => O end)) in Er. change (N.to_nat 4) with 4%nat in Er. cbn [length skipn] in Er. lia.
    + cbv zeta in Eh. destruct (_ <? _) in Eh; [discriminate|]. cbn [get_long_tag] in Eh. change (4 <? 128) with true in Eh. cbn match in Eh.
      destruct (get_len _) as [[n t2]|] in Eh; [|discriminate]. destruct n as [n|]; [destruct (_ <? _) in Eh; [discriminate|]|destruct (h_cst _) in Eh; [|discriminate]]; injection Eh as <- <-; cbn [h_tag] in T; lia.
  - cbn [get_len] in Eh. destruct (N.ltb_spec n1 128) as [Q1|Q1].
    + cbv zeta in Eh. cbn match in Eh. match type of Eh with (if ?X <? _ then _ else _) = _ => destruct (N.ltb_spec X n1) as [Q2|Q2]; [discriminate|] end. injection Eh as <- <-. cbn [h_len h_tag h_cst h_class] in *. injection Er as <-.
      rewrite skipn_length in L. cbn [length] in L, Q2. assert (n1 = 76) by lia. subst n1. change (N.to_nat 76) with 76%nat in L.
      assert (b = 48) by (apply bytes_bit; [apply N.div_small_iff in Cl; lia|exact Ec|exact T]). subst b.
      split; [reflexivity|]. split; [reflexivity|]. change (N.to_nat 76) with 76%nat. split; [|split; [rewrite El; reflexivity|rewrite Ll; lia]].
      f_equal. rewrite skipn_length, Ll. cbn [length]. lia.
    + exfalso. cbv zeta in Eh. destruct (Nat.eqb_spec (N.to_nat (n1 - 128)) 0) as [Q2|Q2].
      * cbn match in Eh. cbn [h_cst] in Eh. destruct (N.testbit b 5); [|discriminate]. injection Eh as <- <-. cbn [h_len] in Er.
        set (f := S (length _)) in Er. assert (Hf : exists f', f = S (S f')) by (eexists; reflexivity). destruct Hf as [f' Hf]. rewrite Hf in Er. clear Hf f.
        apply find_end_string in Er; [|reflexivity]. destruct Er as [_ Er]. change (N.to_nat 8) with 8%nat in Er. cbn [skipn] in Er. apply find_end_string in Er; [|reflexivity]. destruct Er as [Q3 Er].
        apply find_end_short in Er. rewrite skipn_length in Er. change (N.to_nat 64) with 64%nat in Er. lia.
      * destruct (_ <? _)%nat in Eh; [discriminate|]. destruct (N.leb_spec (2 ^ 63) (be_val (firstn (N.to_nat (n1 - 128)) (4 :: 8 :: u0 :: u1 :: u2 :: u3 :: u4 :: u5 :: u6 :: u7 :: 4 :: 64 :: rest)))) as [Q3|Q3]; [discriminate|].
        set (v := be_val _) in *. cbn match in Eh. match type of Eh with (if ?X <? v then _ else _) = _ => destruct (N.ltb_spec X v) as [Q4|Q4]; [discriminate|] end. injection Eh as <- <-. cbn [h_len] in Er. injection Er as <-.
        rewrite skipn_length in *. destruct (N.to_nat (n1 - 128)) as [|[|i]]; [lia| |].
        -- change v with 4 in *. cbn [length skipn] in *. lia.
        -- assert (1024 <= v) by (unfold v; cbn [firstn]; apply be_val_big; lia). rewrite !skipn_length in L. cbn [length] in *. lia.
Qed.
Lemma list14 (l : list N) : (14 <= length l)%nat -> exists x0 x1 x2 x3 x4 x5 x6 x7 x8 x9 xa xb xc xd r, l = x0 :: x1 :: x2 :: x3 :: x4 :: x5 :: x6 :: x7 :: x8 :: x9 :: xa :: xb :: xc :: xd :: r.
Proof.
  intros H. do 14 (destruct l as [|? l]; [cbn [length] in H; lia|]). repeat eexists.
Qed.
Lemma nth_firstn_lt (l : list N) k m d : (k < m)%nat -> nth k (firstn m l) d = nth k l d.
Proof. revert l m. induction k as [|k IH]; intros [|x l] [|m] H; cbn; try lia; try reflexivity. apply IH. lia. Qed.
Lemma any_prefix l a r : get_any l = Some (a, r) -> an_type a = Some 16 -> an_data a = firstn (length l - length r) l.
Proof.
  unfold get_any. destruct (get_header l) as [[h t]|]; [|discriminate]. cbv zeta. destruct (h_class h =? 0).
  - destruct (kept (Some (h_tag h))) eqn:K.
    + destruct (h_cst h); [|discriminate]. match goal with |- match ?X with _ => _ end = _ -> _ => destruct X; [|discriminate] end. intros [= <- <-] _. reflexivity.
    + destruct (h_cst h && never_cst (h_tag h)); [discriminate|]. destruct (get_content h t) as [[c r']|]; [|discriminate]. destruct (c2i_ok (Some (h_tag h)) c); [|discriminate]. intros [= <- _]. cbn [an_type]. intros [= T]. rewrite T in K. discriminate.
  - match goal with |- match ?X with _ => _ end = _ -> _ => destruct X; [|discriminate] end. intros [= <- _]. discriminate.
Qed.
Lemma accepted_only l a r : bytes l -> get_any l = Some (a, r) -> an_type a = Some 16 -> length (an_data a) = 78%nat ->
  nth 2 (an_data a) 0 = 4 -> nth 3 (an_data a) 0 = 8 -> nth 12 (an_data a) 0 = 4 -> nth 13 (an_data a) 0 = 64 ->
  exists iv p, bytesn 8 iv /\ bytesn 64 p /\ an_data a = der_params iv p /\ l = der_params iv p ++ r.
Proof.
  intros B E T L. pose proof (any_prefix _ _ _ E T) as P. assert (Ll : (78 <= length l)%nat) by (rewrite P, firstn_length in L; lia). assert (Lr : (78 <= length l - length r)%nat) by (rewrite P, firstn_length in L; lia).
  rewrite P, !nth_firstn_lt by lia. clear Lr. destruct (list14 l ltac:(lia)) as (x0 & x1 & x2 & x3 & x4 & x5 & x6 & x7 & x8 & x9 & xa & xb & xc & xd & rest & El). rewrite El. cbn [nth]. intros -> -> -> ->.
  assert (Hb : x0 < 256) by (rewrite El in B; inversion B; assumption). destruct (seventy_six _ _ _ _ _ _ _ _ _ _ _ a r l Hb El E T L) as (-> & -> & Ea & Er & _). 
  assert (L64 : (64 <= length rest)%nat) by (rewrite El in Ll; cbn [length] in Ll; lia).
  exists [x4; x5; x6; x7; x8; x9; xa; xb], (firstn 64 rest).
  assert (D : der_params [x4; x5; x6; x7; x8; x9; xa; xb] (firstn 64 rest) = firstn 78 l).
  { unfold der_params, der. rewrite !app_length. cbn [length]. rewrite firstn_length, Nat.min_l by exact L64. rewrite El. reflexivity. }
  assert (Brest : bytes rest /\ bytes [x4; x5; x6; x7; x8; x9; xa; xb]).
  { rewrite El in B. change (48 :: 76 :: 4 :: 8 :: x4 :: x5 :: x6 :: x7 :: x8 :: x9 :: xa :: xb :: 4 :: 64 :: rest) with ([48; 76; 4; 8] ++ [x4; x5; x6; x7; x8; x9; xa; xb] ++ [4; 64] ++ rest) in B. rewrite !bytes_app in B. tauto. }
  destruct Brest as [Brest Biv].
  assert (B8 : bytesn 8 [x4; x5; x6; x7; x8; x9; xa; xb]) by (split; [exact Biv|reflexivity]).
  assert (B64 : bytesn 64 (firstn 64 rest)) by (split; [rewrite <- (firstn_skipn 64 rest), bytes_app in Brest; apply Brest|apply firstn_length_le, L64]).
  rewrite D. split; [exact B8|]. split; [exact B64|]. rewrite <- El. split; [rewrite <- P; exact Ea|]. rewrite Er. symmetry. apply firstn_skipn.
Qed.
Lemma der_definite n : (n < 128)%nat -> definite true n [N.of_nat n].
Proof. intros H. left. auto. Qed.
Lemma der_params_shape iv p : bytesn 8 iv -> bytesn 64 p -> exists x0 x1 x2 x3 x4 x5 x6 x7, der_params iv p = [48; 76; 4; 8; x0; x1; x2; x3; x4; x5; x6; x7; 4; 64] ++ p /\ iv = [x0; x1; x2; x3; x4; x5; x6; x7].
Proof.
  intros [_ L8] [_ L64]. do 8 (destruct iv as [|? iv]; [discriminate|]). destruct iv; [|discriminate]. repeat eexists. unfold der_params, der. rewrite !app_length. cbn [length]. rewrite L64. reflexivity.
Qed.
Lemma der_params_ber iv p : bytesn 8 iv -> bytesn 64 p -> ber_octets true iv (der 4 iv) /\ ber_octets true p (der 4 p) /\ ber_sequence true [der 4 iv; der 4 p] (der_params iv p) /\ fits (der_params iv p).
Proof.
  intros [_ L8] [_ L64].
  assert (I4 : identifier true (Some 4) false [4]) by (exists 4, [], 4; repeat split; left; repeat split; discriminate).
  assert (I16 : identifier true (Some 16) true [48]) by (exists 48, [], 16; repeat split; left; repeat split; discriminate).
  split; [change (der 4 iv) with ([4] ++ [N.of_nat (length iv)] ++ iv); apply ber_prim; [exact I4|apply der_definite; lia]|].
  split; [change (der 4 p) with ([4] ++ [N.of_nat (length p)] ++ p); apply ber_prim; [exact I4|apply der_definite; lia]|].
  assert (Lc : length (der 4 iv ++ der 4 p) = 76%nat) by (rewrite app_length; unfold der; cbn [length]; lia).
  split.
  - exists [48]. split; [exact I16|]. left. exists [N.of_nat 76]. cbn [concat]. rewrite app_nil_r, Lc. split; [apply der_definite; lia|]. unfold der_params, der at 1. rewrite Lc. reflexivity.
  - unfold fits, der_params, der at 1. cbn [length]. rewrite Lc. reflexivity.
Qed.
Scheme bstring_ind2 := Induction for ber_string Sort Prop with bparts_ind2 := Induction for ber_parts Sort Prop.
Combined Scheme bstring_both from bstring_ind2, bparts_ind2.
Lemma strings_elements : (forall d tag v w, ber_string true d tag v w -> exists cst, ber_element true tag cst w) /\ (forall d v w, ber_parts true d v w -> ber_elements true w).
Proof.
  apply (bstring_both true (fun d tag v w _ => exists cst, ber_element true tag cst w) (fun d v w _ => ber_elements true w)).
  - intros d tag id l c I1 D. exists false. apply el_known; assumption.
  - intros d tag c v w _ IH (id & I1 & [(l & D & ->)| ->]); exists true; [apply el_known; assumption|apply el_marked; assumption].
  - intros d. apply els_nil.
  - intros d v w v' w' _ [cst H] NE _ IH. apply els_cons with cst; [|exact NE|exact IH].
    inversion H as [? ? id l c I1 D|? id c I1 E]; subst; [apply el_known; [eapply identifier_none, I1|exact D]|apply el_marked; [eapply identifier_none, I1|exact E]].
Qed.
Lemma string_not_eoc s w t : ber_octets true s w -> w <> 0 :: 0 :: t.
Proof.
  intros H E. assert (X : exists id r, w = id ++ r /\ exists cst, identifier true (Some 4) cst id) by (inversion H as [? ? id l c I1 D|? ? c ? ? P (id & I1 & [(l & D & E1)|E1])]; subst; eauto).
  destruct X as (id & r & -> & cst & b & more & n & -> & Hb & _ & [(H1 & -> & ->)|(X & _)] & _ & H4); [|discriminate]. injection E as -> _. discriminate.
Qed.
Lemma params_element s1 s2 w1 w2 w : ber_octets true s1 w1 -> ber_octets true s2 w2 -> ber_sequence true [w1; w2] w -> ber_element true (Some 16) true w.
Proof.
  intros H1 H2 (id & I1 & [(l & D & ->)| ->]); [apply el_known; assumption|]. apply el_marked; [exact I1|]. cbn [concat].
  assert (X : forall s w, ber_octets true s w -> exists cst, ber_element true None cst w).
  { intros s w H. destruct (proj1 strings_elements _ _ _ _ H) as [cst X]. exists cst. inversion X as [? ? id' l c I2 D|? id' c I2 E]; subst; [apply el_known; [eapply identifier_none, I2|exact D]|apply el_marked; [eapply identifier_none, I2|exact E]]. }
  destruct (X _ _ H1) as [k1 X1], (X _ _ H2) as [k2 X2]. apply els_cons with k1; [exact X1|intros t; eapply string_not_eoc, H1|]. apply els_cons with k2; [exact X2|intros t; eapply string_not_eoc, H2|]. apply els_nil.
Qed.
(** Both strings of a pair. *)
Definition pair_reader : list N -> option ((list N * list N) * list N) :=
  get_seq (fun l => match get_octets l with None => None | Some (x, l) => match get_octets l with None => None | Some (y, l) => Some ((x, y), l) end end).
Lemma pair_complete s1 s2 w1 w2 w t : ber_octets true s1 w1 -> ber_octets true s2 w2 -> ber_sequence true [w1; w2] w -> fits w -> pair_reader (w ++ t) = Some ((s1, s2), t).
Proof.
  intros H1 H2 Q F. apply (get_seq_complete _ [w1; w2]); [exact Q|exact F|]. cbn [concat]. rewrite app_nil_r. intros F2 r _. apply fits_app in F2. destruct F2 as [F1 F2].
  rewrite <- app_assoc, (get_octets_complete s1 w1 _ H1 F1), (get_octets_complete s2 w2 _ H2 F2). reflexivity.
Qed.
Lemma pair_unique iv p iv' p' w1 w2 : bytesn 8 iv' -> bytesn 64 p' -> ber_octets true iv w1 -> ber_octets true p w2 -> ber_sequence true [w1; w2] (der_params iv' p') -> iv' = iv /\ p' = p.
Proof.
  intros B1 B2 H1 H2 Q. destruct (der_params_ber _ _ B1 B2) as (H1' & H2' & Q' & F). pose proof (pair_complete _ _ _ _ _ [] H1 H2 Q F) as E. rewrite (pair_complete _ _ _ _ _ [] H1' H2' Q' F) in E. injection E as -> ->. auto.
Qed.
Lemma der_params_checks iv p : bytesn 8 iv -> bytesn 64 p -> length (der_params iv p) = 78%nat /\ nth 2 (der_params iv p) 0 = 4 /\ nth 3 (der_params iv p) 0 = 8 /\ nth 12 (der_params iv p) 0 = 4 /\ nth 13 (der_params iv p) 0 = 64 /\
  firstn 8 (skipn 4 (der_params iv p)) = iv /\ skipn 14 (der_params iv p) = p.
Proof.
  intros B1 B2. destruct (der_params_shape _ _ B1 B2) as (x0 & x1 & x2 & x3 & x4 & x5 & x6 & x7 & -> & ->). destruct B2 as [_ L]. rewrite app_length, L. repeat split.
Qed.

Lemma read_der c iv p t : bytesn 8 iv -> bytesn 64 p -> read_params c (der_params iv p ++ t) = Some (fst (fst (cipher_ctrl (set_oiv c iv) DSTU_SET_CUSTOM_SBOX 64 (Some p))), 1%Z, t).
Proof.
  intros B1 B2. destruct (der_params_ber _ _ B1 B2) as (H1 & H2 & Q & F). unfold read_params. rewrite (any_structure 16 _ t (or_introl eq_refl) (params_element _ _ _ _ _ H1 H2 Q) F).
  destruct (der_params_checks _ _ B1 B2) as (L & N2 & N3 & N12 & N13 & E1 & E2).
  destruct (get_asn1_cases c (any_value (ANY (Some 16) (der_params iv p) (der_params iv p)))) as [(_ & _ & _ & _ & _ & _ & ->)|[X _]]; cbn [any_value an_type an_data a_data a_type].
  - rewrite E1, E2. reflexivity.
  - exfalso. apply X. cbn [any_value an_type an_data a_data a_type]. repeat split; assumption.
Qed.
Lemma read_only c l : bytes l ->
  match read_params c l with
  | Some (c', r, t) => (exists iv p, bytesn 8 iv /\ bytesn 64 p /\ l = der_params iv p ++ t /\ r = 1%Z) \/
      (forall iv p u, bytesn 8 iv -> bytesn 64 p -> l <> der_params iv p ++ u) /\ c' = c /\ r = (-1)%Z
  | None => forall iv p u, bytesn 8 iv -> bytesn 64 p -> l <> der_params iv p ++ u
  end.
Proof.
  intros B. destruct (read_params c l) as [[[c' r] t]|] eqn:E.
  2: { intros iv p u B1 B2 ->. rewrite read_der in E by assumption. discriminate. }
  pose proof E as E0. unfold read_params in E. destruct (get_any l) as [[a t']|] eqn:Ea; [|discriminate]. destruct (get_asn1_cases c (any_value a)) as [(T & L & N2 & N3 & N12 & N13 & G)|[X G]]; rewrite G in E; injection E as <- <- <-.
  - left. cbn [any_value a_data a_type] in *. destruct (an_type a) as [n|] eqn:En; [|discriminate]. assert (n = 16) by (change V_ASN1_SEQUENCE with (Z.of_N 16) in T; lia). subst n.
    destruct (accepted_only l a t' B Ea En L N2 N3 N12 N13) as (iv & p & B1 & B2 & _ & ->). exists iv, p. auto.
  - right. split; [|auto]. intros iv p u B1 B2 ->. rewrite read_der in E0 by assumption. discriminate.
Qed.
Lemma read_ber c iv p w1 w2 w t : bytes w -> bytes t -> ber_octets true iv w1 -> ber_octets true p w2 -> ber_sequence true [w1; w2] w -> N.of_nat (length w) < 2 ^ 63 -> w <> der_params iv p -> read_params c (w ++ t) = Some (c, (-1)%Z, t).
Proof.
  intros Bw Bt H1 H2 Q F NE. pose proof (any_structure 16 w t (or_introl eq_refl) (params_element _ _ _ _ _ H1 H2 Q) F) as G. unfold read_params. rewrite G.
  destruct (get_asn1_cases c (any_value (ANY (Some 16) w w))) as [(T & L & N2 & N3 & N12 & N13 & _)|[_ ->]]; [|reflexivity]. exfalso.
  cbn [any_value a_data a_type an_data an_type] in *. destruct (accepted_only _ _ _ (proj2 (bytes_app w t) (conj Bw Bt)) G eq_refl L N2 N3 N12 N13) as (iv' & p' & B1 & B2 & E & _). cbn [an_data] in E. subst w.
  destruct (pair_unique _ _ _ _ _ _ B1 B2 H1 H2 Q) as [-> ->]. apply NE. reflexivity.
Qed.
