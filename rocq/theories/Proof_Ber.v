(** The decoder of dstulib/asn1.c reads basic encodings. *)
From Coq Require Import Lia ZArith.
From Verif Require Import Base Lib Model_Gf2m Model_Utils Model_Asn1 Spec_Asn1 Spec_Ber Proof_Asn1.

Lemma bytes_app (a b : list N) : bytes (a ++ b) <-> bytes a /\ bytes b.
Proof. unfold bytes. apply Forall_app. Qed.
Lemma bytes_take n (l : list N) : bytes l -> bytes (firstn n l) /\ bytes (skipn n l).
Proof. intros H. rewrite <- (firstn_skipn n l) in H. apply bytes_app, H. Qed.
Lemma take_split n (t : list N) : n <= N.of_nat (length t) -> exists a b, t = a ++ b /\ firstn (N.to_nat n) t = a /\ skipn (N.to_nat n) t = b /\ N.of_nat (length a) = n.
Proof.
  intros H. exists (firstn (N.to_nat n) t), (skipn (N.to_nat n) t). rewrite firstn_skipn. repeat split. rewrite firstn_length. lia.
Qed.

(** * What is read is an encoding *)
Lemma get_len_sound l n t : bytes l -> get_len l = Some (n, t) ->
  exists u, l = u ++ t /\ match n with None => u = [128] | Some n => forall k, N.of_nat k = n -> definite false k u end.
Proof.
  intros B E. destruct l as [|b l]; [discriminate|]. unfold get_len in E. inversion B as [|? ? B1 B2]. subst. unfold is_byte in B1.
  destruct (N.ltb_spec b 128) as [H|H].
  - injection E as <- <-. exists [b]. split; [reflexivity|]. intros k <-. left. split; [lia|reflexivity].
  - destruct (Nat.eqb_spec (N.to_nat (b - 128)) 0) as [Z|Z].
    + injection E as <- <-. exists [b]. split; [reflexivity|]. f_equal. lia.
    + destruct (Nat.ltb_spec (length l) (N.to_nat (b - 128) + 1)) as [L|L]; [discriminate|].
      destruct (N.leb_spec (2 ^ 63) (be_val (firstn (N.to_nat (b - 128)) l))) as [V|V]; [discriminate|]. injection E as <- <-.
      set (i := N.to_nat (b - 128)) in *. assert (FL : length (firstn i l) = i) by (rewrite firstn_length; lia).
      exists (b :: firstn i l). split; [cbn [app]; rewrite firstn_skipn; reflexivity|]. intros k Hk. right. exists (firstn i l).
      split; [rewrite FL; f_equal; lia|]. split; [destruct (firstn i l); [cbn in FL; lia|discriminate]|]. split; [lia|].
      split; [apply bytes_take, B2|]. split; [symmetry; exact Hk|]. discriminate.
Qed.
Lemma long_tag_sound l : forall acc n t, bytes l -> get_long_tag acc l = Some (n, t) -> acc < 2 ^ 24 ->
  exists i e, l = (i ++ [e]) ++ t /\ Forall (fun b => 128 <= b < 256) i /\ e < 128 /\ n = fold_left (fun a b => 128 * a + b mod 128) (i ++ [e]) acc /\ n < 2 ^ 31.
Proof.
  induction l as [|b l IH]; intros acc n t B E A; [discriminate|]. cbn [get_long_tag] in E. inversion B as [|? ? B1 B2]. subst. unfold is_byte in B1.
  destruct (N.ltb_spec b 128) as [H|H].
  - injection E as <- <-. exists [], b. split; [reflexivity|]. split; [constructor|]. split; [exact H|]. cbn [app fold_left]. rewrite N.mod_small by exact H. split; [reflexivity|].
    change (2 ^ 24) with 16777216 in A. change (2 ^ 31) with 2147483648. lia.
  - destruct (N.ltb_spec (2 ^ 24 - 1) (128 * acc + (b - 128))) as [L|L]; [discriminate|].
    change (2 ^ 24) with 16777216 in *. destruct (IH _ _ _ B2 E) as (i & e & -> & F & He & -> & R); [lia|].
    exists (b :: i), e. split; [reflexivity|]. split; [constructor; [lia|exact F]|]. split; [exact He|]. cbn [app fold_left]. 
    replace (b mod 128) with (b - 128); [split; [reflexivity|exact R]|]. replace b with (b - 128 + 1 * 128) at 2 by lia. rewrite N.mod_add by lia. rewrite N.mod_small; lia.
Qed.
Lemma get_header_sound l h t : bytes l -> get_header l = Some (h, t) ->
  exists id u, l = id ++ u ++ t /\ identifier false None (h_cst h) id /\ (forall tag, is_tag tag h = true -> identifier false (Some tag) (h_cst h) id) /\
    match h_len h with None => u = [128] /\ h_cst h = true | Some n => n <= N.of_nat (length t) /\ forall k, N.of_nat k = n -> definite false k u end.
Proof.
  intros B E. destruct l as [|b l]; [discriminate|]. unfold get_header in E. inversion B as [|? ? B1 B2]. subst. unfold is_byte in B1.
  destruct (if b mod 32 =? 31 then get_long_tag 0 l else Some (b mod 32, l)) as [[tag l1]|] eqn:E1; [|discriminate].
  destruct (get_len l1) as [[n l2]|] eqn:E2; [|discriminate]. cbn [h_cst] in E.
  assert (X : exists more, l = more ++ l1 /\ (b mod 32 <> 31 /\ more = [] /\ tag = b mod 32 \/ false = false /\ b mod 32 = 31 /\ long_tag tag more)).
  { destruct (N.eqb_spec (b mod 32) 31) as [Q|Q].
    - destruct (long_tag_sound _ _ _ _ B2 E1 ltac:(reflexivity)) as (i & e & -> & F & He & Hn & R). exists (i ++ [e]). split; [reflexivity|]. right. split; [reflexivity|]. split; [exact Q|].
      exists i, e. split; [reflexivity|]. split; [exact F|]. split; [exact He|]. split; [symmetry; exact Hn|exact R].
    - injection E1 as <- <-. exists []. split; [reflexivity|]. left. split; [exact Q|]. split; reflexivity. }
  destruct X as (more & -> & X). apply bytes_app in B2. destruct B2 as [_ B2]. destruct (get_len_sound _ _ _ B2 E2) as (u & -> & U).
  assert (R : h = HEADER tag (b / 64) (N.testbit b 5) n /\ t = l2 /\ match n with None => N.testbit b 5 = true | Some n => n <= N.of_nat (length l2) end).
  { destruct n as [n|].
    - destruct (N.ltb_spec (N.of_nat (length l2)) n); [discriminate|]. injection E as <- <-. repeat split. assumption.
    - destruct (N.testbit b 5) eqn:T; [|discriminate]. injection E as <- <-. repeat split. }
  destruct R as (-> & -> & R). clear E. cbn [h_cst h_len].
  exists (b :: more), u. split; [cbn [app]; reflexivity|].
  split. { exists b, more, tag. repeat (split; [solve [reflexivity|exact B1|exact X]|]). exact I. }
  split.
  { intros tg T. unfold is_tag in T. cbn [h_tag h_class] in T. apply andb_prop in T. destruct T as [T1 T2]. apply N.eqb_eq in T1, T2. subst tg.
    exists b, more, tag. repeat (split; [solve [reflexivity|exact B1|exact X]|]). split; [|reflexivity]. pose proof (N.div_mod b 64 ltac:(lia)). pose proof (N.mod_lt b 64 ltac:(lia)). lia. }
  destruct n as [n|]; [split; [exact R|exact U]|split; [exact U|exact R]].
Qed.
Lemma is_eoc_true l : is_eoc l = true -> exists t, l = 0 :: 0 :: t.
Proof. destruct l as [|[|a] [|[|b] t]]; try discriminate. intros _. exists t. reflexivity. Qed.
Lemma collect_sound f : forall d inf l v t, bytes l -> collect f d inf l = Some (v, t) -> exists c, ber_parts false d v c /\ if inf then l = c ++ 0 :: 0 :: t else l = c /\ t = [].
Proof.
  induction f as [|f IH]; intros d inf l v t B E; [discriminate|]. cbn [collect] in E. destruct l as [|b0 l0].
  { destruct inf; [discriminate|]. injection E as <- <-. exists []. split; [constructor|]. split; reflexivity. }
  set (l := b0 :: l0) in *. clearbody l. clear b0 l0. destruct (is_eoc l) eqn:Eo.
  { destruct inf; [|discriminate]. injection E as <- <-. destruct (is_eoc_true _ Eo) as (t & ->). exists []. split; [constructor|reflexivity]. }
  destruct (get_header l) as [[h u]|] eqn:Eh; [|discriminate]. destruct (get_header_sound _ _ _ B Eh) as (id & w & -> & I1 & _ & Hl).
  match type of E with match ?X with _ => _ end = _ => destruct X as [[s u2]|] eqn:Ei; [|discriminate] end.
  assert (X : exists p, id ++ w ++ u = p ++ u2 /\ ber_string false d None s p).
  { destruct (h_cst h) eqn:Ec.
    - destruct d as [|d]; [discriminate|]. destruct (h_len h) as [n|].
      + destruct Hl as [Hn Hd]. destruct (take_split n u Hn) as (a & r & -> & Ea & Er & La). rewrite Ea, Er in Ei. 
        destruct (collect f d false a) as [[s' x]|] eqn:Ek; [|discriminate]. injection Ei as <- <-.
        rewrite !bytes_app in B. destruct (IH _ _ _ _ _ (proj1 (proj2 (proj2 B))) Ek) as (c & P & -> & _).
        exists (id ++ w ++ c). split; [rewrite <- !app_assoc; reflexivity|]. apply (ber_cons _ _ _ c); [exact P|]. exists id. split; [exact I1|]. left. exists w. split; [apply Hd, La|reflexivity].
      + destruct Hl as [-> _]. rewrite !bytes_app in B. destruct (IH _ _ _ _ _ (proj2 (proj2 B)) Ei) as (c & P & ->).
        exists (id ++ [128] ++ c ++ [0; 0]). split; [rewrite <- !app_assoc; reflexivity|]. apply (ber_cons _ _ _ c); [exact P|]. exists id. split; [exact I1|]. right. reflexivity.
    - destruct (h_len h) as [n|]; [|discriminate]. destruct Hl as [Hn Hd]. destruct (take_split n u Hn) as (a & r & -> & Ea & Er & La). rewrite Ea, Er in Ei. injection Ei as <- <-.
      exists (id ++ w ++ a). split; [rewrite <- !app_assoc; reflexivity|]. apply ber_prim; [exact I1|]. apply Hd, La. }
  destruct X as (p & Ep & P). rewrite Ep in *. destruct (collect f d inf u2) as [[s' t']|] eqn:Ec; [|discriminate]. injection E as <- <-.
  apply bytes_app in B. destruct (IH _ _ _ _ _ (proj2 B) Ec) as (c & Q & R). exists (p ++ c). split.
  - apply parts_cons; [exact P| |exact Q]. intros r ->. discriminate Eo.
  - destruct inf; [rewrite R, <- app_assoc; reflexivity|]. destruct R as [-> ->]. split; reflexivity.
Qed.
Lemma get_tlv_sound tag l c t : bytes l -> get_tlv tag l = Some (c, t) -> exists w, l = w ++ t /\ ber_primitive false tag c w.
Proof.
  intros B E. unfold get_tlv in E. destruct (get_header l) as [[h u]|] eqn:Eh; [|discriminate]. destruct (get_header_sound _ _ _ B Eh) as (id & w & -> & _ & I1 & Hl).
  destruct (is_tag tag h) eqn:T; [|discriminate]. specialize (I1 _ T). destruct (h_cst h); [discriminate|]. cbn [negb andb] in E.
  destruct (h_len h) as [n|]; [|discriminate]. destruct Hl as [Hn Hd]. destruct (take_split n u Hn) as (a & r & -> & Ea & Er & La). rewrite Ea, Er in E. injection E as <- <-.
  exists (id ++ w ++ a). split; [rewrite <- !app_assoc; reflexivity|]. exists id, w. split; [exact I1|]. split; [apply Hd, La|reflexivity].
Qed.
Lemma get_octets_sound l s t : bytes l -> get_octets l = Some (s, t) -> exists w, l = w ++ t /\ ber_octets false s w.
Proof.
  intros B E. unfold get_octets in E. destruct (get_header l) as [[h u]|] eqn:Eh; [|discriminate]. destruct (get_header_sound _ _ _ B Eh) as (id & w & -> & _ & I1 & Hl).
  destruct (is_tag 4 h) eqn:T; [|discriminate]. specialize (I1 _ T). cbn [negb] in E. rewrite !bytes_app in B. destruct (h_cst h) eqn:Ec.
  - destruct (h_len h) as [n|].
    + destruct Hl as [Hn Hd]. destruct (take_split n u Hn) as (a & r & -> & Ea & Er & La). rewrite Ea, Er in E.
      destruct (collect (S (length a)) max_string_nest false a) as [[s' x]|] eqn:Ek; [|discriminate]. injection E as <- <-. rewrite bytes_app in B.
      destruct (collect_sound _ _ _ _ _ _ (proj1 (proj2 (proj2 B))) Ek) as (c & P & -> & _).
      exists (id ++ w ++ c). split; [rewrite <- !app_assoc; reflexivity|]. apply (ber_cons _ _ _ c); [exact P|]. exists id. split; [exact I1|]. left. exists w. split; [apply Hd, La|reflexivity].
    + destruct Hl as [-> _]. destruct (collect_sound _ _ _ _ _ _ (proj2 (proj2 B)) E) as (c & P & ->).
      exists (id ++ [128] ++ c ++ [0; 0]). split; [rewrite <- !app_assoc; reflexivity|]. apply (ber_cons _ _ _ c); [exact P|]. exists id. split; [exact I1|]. right. reflexivity.
  - destruct (h_len h) as [n|]; [|discriminate]. destruct Hl as [Hn Hd]. destruct (take_split n u Hn) as (a & r & -> & Ea & Er & La). rewrite Ea, Er in E. injection E as <- <-.
    exists (id ++ w ++ a). split; [rewrite <- !app_assoc; reflexivity|]. apply ber_prim; [exact I1|]. apply Hd, La.
Qed.
Lemma get_int_sound l x t : bytes l -> get_int l = Some (x, t) -> exists w, l = w ++ t /\ ber_integer false x w.
Proof.
  intros B E. unfold get_int in E. destruct (get_tlv 2 l) as [[c u]|] eqn:Et; [|discriminate]. destruct (int_value c) as [y|] eqn:V; [|discriminate]. injection E as <- <-.
  destruct (get_tlv_sound _ _ _ _ B Et) as (w & -> & P). exists w. split; [reflexivity|]. exists c. destruct (int_value_twos _ _ V). repeat (split; [assumption|]). exact P.
Qed.
(** Object identifiers. *)
Lemma subids_spec c : forall start, subids_ok start c = true <->
  (start = true /\ exists ids, Forall subidentifier ids /\ c = concat ids) \/
  (start = false /\ exists i l ids, Forall (fun b => 128 <= b) i /\ l < 128 /\ Forall subidentifier ids /\ c = i ++ l :: concat ids).
Proof.
  induction c as [|b c IH]; intros start; cbn [subids_ok].
  - split.
    + intros ->. left. split; [reflexivity|]. exists []. split; [constructor|reflexivity].
    + intros [[-> _]|(-> & i & l & ids & _ & _ & _ & E)]; [reflexivity|]. destruct i; discriminate.
  - destruct (start && (b =? 128)) eqn:Q.
    + apply andb_prop in Q. destruct Q as [-> Q]. apply N.eqb_eq in Q. subst b. split; [discriminate|]. intros [(_ & ids & F & E)|[E _]]; [|discriminate].
      exfalso. destruct ids as [|s ids]; [discriminate|]. inversion F as [|? ? F1 F2]. subst. destruct F1 as (i & l & -> & _ & _ & Hh). cbn [concat] in E. destruct i; cbn in E, Hh; injection E as E _; congruence.
    + rewrite IH. split.
      * intros [(Hb & ids & F & ->)|(Hb & i & l & ids & Fi & Hl & F & ->)].
        -- apply N.ltb_lt in Hb. destruct start; [left|right; split; [reflexivity|]; exists [], b, ids; repeat split; [constructor|exact Hb|exact F]].
           split; [reflexivity|]. exists ([b] :: ids). split; [|reflexivity]. constructor; [|exact F]. exists [], b. repeat split; [constructor|exact Hb|]. cbn. lia.
        -- apply N.ltb_ge in Hb. destruct start; [left; split; [reflexivity|]|right; split; [reflexivity|]; exists (b :: i), l, ids; repeat split; [constructor; assumption|exact Hl|exact F]].
           exists ((b :: i ++ [l]) :: ids). split; [|cbn [concat]; rewrite app_comm_cons; cbn [app]; rewrite <- app_assoc; reflexivity]. constructor; [|exact F].
           exists (b :: i), l. split; [reflexivity|]. split; [constructor; assumption|]. split; [exact Hl|]. cbn [hd]. intros ->. discriminate.
      * intros [(-> & ids & F & E)|(-> & i & l & ids & Fi & Hl & F & E)].
        -- destruct ids as [|s ids]; [discriminate|]. inversion F as [|? ? F1 F2]. subst. destruct F1 as (i & l & -> & Fi & Hl & Hh). cbn [concat] in E. rewrite <- app_assoc in E. cbn [app] in E.
           destruct i as [|x i]; cbn [app] in E; injection E as -> ->.
           ++ left. split; [apply N.ltb_lt, Hl|]. exists ids. split; [exact F2|reflexivity].
           ++ inversion Fi as [|? ? Fi1 Fi2]. subst. right. split; [apply N.ltb_ge, Fi1|]. exists i, l, ids. repeat split; assumption.
        -- destruct i as [|x i]; cbn [app] in E; injection E as -> ->.
           ++ left. split; [apply N.ltb_lt, Hl|]. exists ids. split; [exact F|reflexivity].
           ++ inversion Fi as [|? ? Fi1 Fi2]. subst. right. split; [apply N.ltb_ge, Fi1|]. exists i, l, ids. repeat split; assumption.
Qed.
Lemma oid_ok_spec c : oid_ok c = true <-> oid_content c.
Proof.
  unfold oid_ok, oid_content. destruct c as [|b c].
  - split; [discriminate|]. intros (ids & N0 & F & E). destruct ids as [|s ids]; [contradiction|]. inversion F as [|? ? F1 F2]. subst. destruct F1 as (i & l & -> & _). cbn in E. destruct i; discriminate.
  - rewrite subids_spec. split.
    + intros [(_ & ids & F & E)|[X _]]; [|discriminate]. exists ids. split; [intros ->; discriminate|]. split; assumption.
    + intros (ids & _ & F & E). left. split; [reflexivity|]. exists ids. split; assumption.
Qed.
Lemma get_oid_sound l c t : bytes l -> get_oid l = Some (c, t) -> exists w, l = w ++ t /\ ber_oid false c w.
Proof.
  intros B E. unfold get_oid in E. destruct (get_tlv 6 l) as [[c' u]|] eqn:Et; [|discriminate]. destruct (oid_ok c') eqn:O; [|discriminate]. injection E as <- <-.
  destruct (get_tlv_sound _ _ _ _ B Et) as (w & -> & P). exists w. split; [reflexivity|]. split; [apply oid_ok_spec, O|exact P].
Qed.
Lemma get_seq_sound {A} (f : list N -> option (A * list N)) (P : A -> list (list N) -> Prop) :
  (forall c x t, bytes c -> f c = Some (x, t) -> exists parts, P x parts /\ c = concat parts ++ t) ->
  forall l x t, bytes l -> get_seq f l = Some (x, t) -> exists parts w, P x parts /\ ber_sequence false parts w /\ l = w ++ t.
Proof.
  intros Hf l x t B E. unfold get_seq in E. destruct (get_header l) as [[h u]|] eqn:Eh; [|discriminate]. destruct (get_header_sound _ _ _ B Eh) as (id & w & -> & _ & I1 & Hl).
  destruct (is_tag 16 h) eqn:T; [|discriminate]. specialize (I1 _ T). destruct (h_cst h); [|discriminate]. cbn [andb] in E. rewrite !bytes_app in B.
  destruct (h_len h) as [n|].
  - destruct Hl as [Hn Hd]. destruct (take_split n u Hn) as (a & r & -> & Ea & Er & La). rewrite Ea, Er in E. rewrite bytes_app in B.
    destruct (f a) as [[y [|? ?]]|] eqn:Ef; [|discriminate|discriminate]. injection E as <- <-. destruct (Hf _ _ _ (proj1 (proj2 (proj2 B))) Ef) as (parts & HP & Ec). rewrite app_nil_r in Ec. subst a.
    exists parts, (id ++ w ++ concat parts). split; [exact HP|]. split; [|rewrite <- !app_assoc; reflexivity]. exists id. split; [exact I1|]. left. exists w. split; [apply Hd, La|reflexivity].
  - destruct Hl as [-> _]. destruct (f u) as [[y u']|] eqn:Ef; [|discriminate]. destruct (is_eoc u') eqn:Eo; [|discriminate]. destruct (is_eoc_true _ Eo) as (t' & ->). injection E as <- <-.
    destruct (Hf _ _ _ (proj2 (proj2 B)) Ef) as (parts & HP & ->). exists parts, (id ++ [128] ++ concat parts ++ [0; 0]). split; [exact HP|].
    split; [|rewrite <- !app_assoc; reflexivity]. exists id. split; [exact I1|]. right. reflexivity.
Qed.
Lemma get_middle_sound l p t : bytes l -> get_middle l = Some (p, t) -> exists w, l = w ++ t /\ ber_middle false p w.
Proof.
  intros B E. unfold get_middle in E. destruct (get_header l) as [[h u]|]; [|discriminate]. destruct (is_tag 2 h).
  - destruct (get_int l) as [[k l1]|] eqn:E1; [|discriminate]. injection E as <- <-. exact (get_int_sound _ _ _ B E1).
  - destruct (get_seq_sound get_pentanomial (fun p parts => exists k j x wk wj wl, p = Pentanomial k j x /\ ber_integer false k wk /\ ber_integer false j wj /\ ber_integer false x wl /\ parts = [wk; wj; wl])
      ) with (2 := B) (3 := E) as (parts & w & (k & j & x & wk & wj & wl & -> & K & J & L & ->) & S & ->).
    + clear. intros c p t B E. unfold get_pentanomial in E. destruct (get_int c) as [[k l1]|] eqn:E1; [|discriminate]. destruct (get_int_sound _ _ _ B E1) as (wk & -> & K).
      apply bytes_app in B. destruct (get_int l1) as [[j l2]|] eqn:E2; [|discriminate]. destruct (get_int_sound _ _ _ (proj2 B) E2) as (wj & -> & J). rewrite bytes_app in B.
      destruct (get_int l2) as [[x l3]|] eqn:E3; [|discriminate]. destruct (get_int_sound _ _ _ (proj2 (proj2 B)) E3) as (wl & -> & L). injection E as <- <-.
      exists [wk; wj; wl]. split; [|cbn [concat]; rewrite app_nil_r, <- !app_assoc; reflexivity]. exists k, j, x, wk, wj, wl. repeat (split; [first [reflexivity|assumption]|]). reflexivity.
    + exists w. split; [reflexivity|]. exists wk, wj, wl. repeat (split; [assumption|]). exact S.
Qed.
Lemma get_field_sound l f t : bytes l -> get_field l = Some (f, t) -> exists w, l = w ++ t /\ ber_field false f w.
Proof.
  intros B E. unfold get_field in E.
  match type of E with get_seq ?FF _ = _ => destruct (get_seq_sound FF (fun f parts => exists wm wp, ber_integer false (bf_m f) wm /\ ber_middle false (bf_poly f) wp /\ parts = [wm; wp])) with (2 := B) (3 := E) as (parts & w & (wm & wp & M & P & ->) & S & ->) end.
  - clear. intros c f t B E. destruct (get_int c) as [[k l1]|] eqn:E1; [|discriminate]. destruct (get_int_sound _ _ _ B E1) as (wk & -> & K).
    apply bytes_app in B. destruct (get_middle l1) as [[j l2]|] eqn:E2; [|discriminate]. destruct (get_middle_sound _ _ _ (proj2 B) E2) as (wj & -> & J). injection E as <- <-.
    exists [wk; wj]. split; [|cbn [concat]; rewrite app_nil_r, <- !app_assoc; reflexivity]. exists wk, wj. repeat (split; [assumption|]). reflexivity.
  - exists w. split; [reflexivity|]. exists wm, wp. repeat (split; [assumption|]). exact S.
Qed.
Lemma get_custom_sound l c t : bytes l -> get_custom l = Some (c, t) -> exists w, l = w ++ t /\ ber_custom false c w.
Proof.
  intros B E. unfold get_custom in E.
  match type of E with get_seq ?FF _ = _ => destruct (get_seq_sound FF (fun c parts => exists wf wa wb wn wbp, ber_field false (cu_field c) wf /\ ber_integer false (cu_a c) wa /\ ber_octets false (cu_b c) wb /\ ber_integer false (cu_n c) wn /\ ber_octets false (cu_bp c) wbp /\ parts = [wf; wa; wb; wn; wbp]))
    with (2 := B) (3 := E) as (parts & w & (wf & wa & wb & wn & wbp & F & A & Bb & Nn & Bp & ->) & S & ->) end.
  - clear. intros c f t B E.
    destruct (get_field c) as [[x1 l1]|] eqn:E1; [|discriminate]. destruct (get_field_sound _ _ _ B E1) as (w1 & -> & D1). apply bytes_app in B. destruct B as [_ B].
    destruct (get_int l1) as [[x2 l2]|] eqn:E2; [|discriminate]. destruct (get_int_sound _ _ _ B E2) as (w2 & -> & D2). apply bytes_app in B. destruct B as [_ B].
    destruct (get_octets l2) as [[x3 l3]|] eqn:E3; [|discriminate]. destruct (get_octets_sound _ _ _ B E3) as (w3 & -> & D3). apply bytes_app in B. destruct B as [_ B].
    destruct (get_int l3) as [[x4 l4]|] eqn:E4; [|discriminate]. destruct (get_int_sound _ _ _ B E4) as (w4 & -> & D4). apply bytes_app in B. destruct B as [_ B].
    destruct (get_octets l4) as [[x5 l5]|] eqn:E5; [|discriminate]. destruct (get_octets_sound _ _ _ B E5) as (w5 & -> & D5). injection E as <- <-.
    exists [w1; w2; w3; w4; w5]. split; [|cbn [concat]; rewrite app_nil_r, <- !app_assoc; reflexivity]. exists w1, w2, w3, w4, w5. repeat (split; [assumption|]). reflexivity.
  - exists w. split; [reflexivity|]. exists wf, wa, wb, wn, wbp. repeat (split; [assumption|]). exact S.
Qed.
Lemma get_params_sound l p t : bytes l -> get_params l = Some (p, t) -> exists w, l = w ++ t /\ ber_params false p w.
Proof.
  intros B E. unfold get_params in E.
  match type of E with get_seq ?FF _ = _ => destruct (get_seq_sound FF (fun p parts => exists wc ws, match ap_curve p with Named o => ber_oid false o wc | Custom c => ber_custom false c wc end /\
    match ap_sbox p with Some s => exists v, ber_octets false s v /\ ws = [v] | None => ws = [] end /\ parts = wc :: ws)) with (2 := B) (3 := E) as (parts & w & (wc & ws & C & Q & ->) & S & ->) end.
  - clear. intros c p t B E. destruct (get_curvespec c) as [[cs l1]|] eqn:E1; [|discriminate].
    assert (X : exists w, c = w ++ l1 /\ match cs with Named o => ber_oid false o w | Custom c => ber_custom false c w end).
    { unfold get_curvespec in E1. destruct (get_header c) as [[h u]|]; [|discriminate]. destruct (is_tag 6 h).
      - destruct (get_oid c) as [[o l2]|] eqn:E2; [|discriminate]. injection E1 as <- <-. exact (get_oid_sound _ _ _ B E2).
      - destruct (get_custom c) as [[o l2]|] eqn:E2; [|discriminate]. injection E1 as <- <-. exact (get_custom_sound _ _ _ B E2). }
    destruct X as (wc & -> & C). apply bytes_app in B. destruct l1 as [|b0 l0].
    + injection E as <- <-. exists [wc]. split; [|cbn [concat]; rewrite !app_nil_r; reflexivity]. exists wc, []. split; [exact C|]. split; reflexivity.
    + set (l1 := b0 :: l0) in *. clearbody l1. destruct (is_eoc l1).
      * injection E as <- <-. exists [wc]. split; [|cbn [concat]; rewrite app_nil_r; reflexivity]. exists wc, []. split; [exact C|]. split; reflexivity.
      * destruct (get_octets l1) as [[s l2]|] eqn:E2; [|discriminate]. injection E as <- <-. destruct (get_octets_sound _ _ _ (proj2 B) E2) as (v & -> & V).
        exists [wc; v]. split; [|cbn [concat]; rewrite app_nil_r, <- app_assoc; reflexivity]. exists wc, [v]. split; [exact C|]. split; [exists v; split; [exact V|reflexivity]|reflexivity].
  - exists w. split; [reflexivity|]. exists wc, ws. repeat (split; [assumption|]). exact S.
Qed.
Lemma d2i_params_sound l p : bytes l -> d2i_params l = Some p -> exists w t, l = w ++ t /\ ber_params false p w.
Proof.
  intros B E. unfold d2i_params in E. destruct (get_params l) as [[q t]|] eqn:G; [|discriminate]. injection E as ->. destruct (get_params_sound _ _ _ B G) as (w & W & P). exists w, t. split; assumption.
Qed.
Lemma d2i_octets_sound l s : bytes l -> d2i_octets l = Some s -> exists w t, l = w ++ t /\ ber_octets false s w.
Proof.
  intros B E. unfold d2i_octets in E. destruct (get_octets l) as [[q t]|] eqn:G; [|discriminate]. injection E as ->. destruct (get_octets_sound _ _ _ B G) as (w & W & P). exists w, t. split; assumption.
Qed.

(** * Encodings are read *)
Definition fits (l : list N) : Prop := N.of_nat (length l) < 2 ^ 63.
Lemma fits_app a b : fits (a ++ b) -> fits a /\ fits b.
Proof. unfold fits. rewrite app_length. lia. Qed.
Lemma get_len_complete n u r : definite true n u -> N.of_nat n < 2 ^ 63 -> (n <= length r)%nat -> get_len (u ++ r) = Some (Some (N.of_nat n), r).
Proof.
  intros [[H ->]|(ds & -> & Hd & Hl & B & V & Z)] F L.
  - cbn [app get_len]. destruct (N.ltb_spec (N.of_nat n) 128); [reflexivity|lia].
  - specialize (Z eq_refl). cbn [app get_len]. destruct (N.ltb_spec (128 + N.of_nat (length ds)) 128); [lia|].
    replace (N.to_nat (128 + N.of_nat (length ds) - 128)) with (length ds) by lia.
    destruct (Nat.eqb_spec (length ds) 0) as [Q|Q]; [destruct ds; [contradiction|discriminate]|].
    destruct (Nat.ltb_spec (length (ds ++ r)) (length ds + 1)) as [Q1|Q1]; [rewrite app_length in Q1; lia|].
    rewrite firstn_app, Nat.sub_diag, firstn_all, firstn_O, app_nil_r, V. destruct (N.leb_spec (2 ^ 63) (N.of_nat n)); [lia|].
    rewrite skipn_app, Nat.sub_diag, skipn_all. reflexivity.
Qed.
Lemma identifier_strict tag cst id : identifier true (Some tag) cst id -> exists b, id = [b] /\ b mod 32 = tag /\ b mod 32 <> 31 /\ b / 64 = 0 /\ N.testbit b 5 = cst.
Proof.
  intros (b & more & n & -> & Hb & Hc & [(H1 & -> & ->)|(X & _)] & H3 & H4); [|discriminate]. exists b. repeat split; try assumption. apply N.div_small, H3.
Qed.
Lemma get_header_definite tag cst id n u r : identifier true (Some tag) cst id -> definite true n u -> N.of_nat n < 2 ^ 63 -> (n <= length r)%nat ->
  get_header (id ++ u ++ r) = Some (HEADER tag 0 cst (Some (N.of_nat n)), r).
Proof.
  intros I1 D F L. destruct (identifier_strict _ _ _ I1) as (b & -> & <- & Hb & Hc & <-). cbn [app get_header]. destruct (N.eqb_spec (b mod 32) 31); [contradiction|].
  rewrite (get_len_complete n) by assumption. destruct (N.ltb_spec (N.of_nat (length r)) (N.of_nat n)); [lia|]. rewrite Hc. reflexivity.
Qed.
Lemma get_header_indefinite tag id r : identifier true (Some tag) true id -> get_header (id ++ [128] ++ r) = Some (HEADER tag 0 true None, r).
Proof.
  intros I1. destruct (identifier_strict _ _ _ I1) as (b & -> & <- & Hb & Hc & E). cbn [app get_header]. destruct (N.eqb_spec (b mod 32) 31); [contradiction|].
  cbn [get_len]. change (128 <? 128) with false. change (N.to_nat (128 - 128) =? 0)%nat with true. cbn match. cbn [h_cst]. rewrite E, Hc. reflexivity.
Qed.
Lemma take_nat (c t : list N) n : n = N.of_nat (length c) -> firstn (N.to_nat n) (c ++ t) = c /\ skipn (N.to_nat n) (c ++ t) = t.
Proof. intros ->. apply take_app. Qed.
(** The middle of [collect]. *)
Definition item (f d : nat) (h : header) (t : list N) : option (list N * list N) :=
  if h_cst h then
    match d with
    | O => None
    | S d => match h_len h with
             | Some n => match collect f d false (firstn (N.to_nat n) t) with Some (s, _) => Some (s, skipn (N.to_nat n) t) | None => None end
             | None => collect f d true t
             end
    end
  else match h_len h with Some n => Some (firstn (N.to_nat n) t, skipn (N.to_nat n) t) | None => None end.
Lemma collect_step f d inf l : l <> [] -> is_eoc l = false -> collect (S f) d inf l =
  match get_header l with
  | None => None
  | Some (h, t) => match item f d h t with None => None | Some (s, t) => match collect f d inf t with Some (s', t) => Some (s ++ s', t) | None => None end end
  end.
Proof. intros H E. destruct l as [|b l]; [contradiction|]. cbn [collect]. rewrite E. reflexivity. Qed.
Scheme ber_string_mut := Minimality for ber_string Sort Prop with ber_parts_mut := Minimality for ber_parts Sort Prop.
Combined Scheme ber_both from ber_string_mut, ber_parts_mut.
Definition string_read (d : nat) (tag : option N) (v w : list N) : Prop :=
  tag = Some 4 -> fits w -> forall f t, (length (w ++ t) <= f)%nat -> exists h u, get_header (w ++ t) = Some (h, u) /\ is_tag 4 h = true /\ item f d h u = Some (v, t).
Definition parts_read (d : nat) (v w : list N) : Prop :=
  fits w -> (forall f, (length w < f)%nat -> collect f d false w = Some (v, [])) /\
            (forall f t, (length (w ++ [0%N; 0%N] ++ t) < f)%nat -> collect f d true (w ++ [0; 0] ++ t) = Some (v, t)).
Lemma is_eoc_false l : (forall t, l <> 0 :: 0 :: t) -> (length l >= 2)%nat -> forall r, is_eoc (l ++ r) = false /\ l ++ r <> [].
Proof.
  intros H L r. destruct l as [|a [|b l]]; cbn in L; try lia. split; [|discriminate]. cbn [app is_eoc]. destruct a as [|a]; [|reflexivity]. destruct b as [|b]; [|reflexivity]. exfalso. exact (H l eq_refl).
Qed.
Lemma definite_length n u : definite true n u -> (1 <= length u)%nat.
Proof. intros [[_ ->]|(ds & -> & _)]; cbn; lia. Qed.
Lemma identifier_length tag cst id : identifier true tag cst id -> length id = 1%nat.
Proof. intros (b & more & n & -> & _ & _ & [(_ & -> & _)|(X & _)] & _); [reflexivity|discriminate]. Qed.
Lemma string_length d tag v w : ber_string true d tag v w -> (length w >= 2)%nat.
Proof.
  intros H. inversion H as [? ? id l c I1 D|? ? c ? ? P (id & I1 & [(l & D & E)|E])]; subst; rewrite ?app_length; pose proof (identifier_length _ _ _ I1);
    try (pose proof (definite_length _ _ D)); cbn [length]; lia.
Qed.
Lemma both_complete : (forall d tag v w, ber_string true d tag v w -> string_read d tag v w) /\ (forall d v w, ber_parts true d v w -> parts_read d v w).
Proof.
  apply (ber_both true string_read parts_read).
  - intros d tag id l c I1 D -> F f t _. exists (HEADER 4 0 false (Some (N.of_nat (length c)))), (c ++ t).
    rewrite <- !app_assoc. apply fits_app in F. destruct F as [_ F]. apply fits_app in F. destruct F as [_ F].
    split; [apply get_header_definite; [exact I1|exact D|exact F|rewrite app_length; lia]|]. split; [reflexivity|]. unfold item. cbn [h_cst h_len]. destruct (take_app c t) as [-> ->]. reflexivity.
  - intros d tag c v w _ P (id & I1 & [(l & D & ->)| ->]) -> F f t L.
    + apply fits_app in F. destruct F as [_ F]. apply fits_app in F. destruct F as [_ F]. exists (HEADER 4 0 true (Some (N.of_nat (length c)))), (c ++ t).
      rewrite <- !app_assoc. split; [apply get_header_definite; [exact I1|exact D|exact F|rewrite app_length; lia]|]. split; [reflexivity|]. unfold item. cbn [h_cst h_len].
      destruct (take_app c t) as [-> ->]. rewrite (proj1 (P F) f); [reflexivity|]. pose proof (identifier_length _ _ _ I1). rewrite !app_length in L. lia.
    + apply fits_app in F. destruct F as [_ F]. apply fits_app in F. destruct F as [_ F]. apply fits_app in F. destruct F as [F _]. exists (HEADER 4 0 true None), (c ++ [0; 0] ++ t).
      rewrite <- !app_assoc. split; [apply get_header_indefinite, I1|]. split; [reflexivity|]. unfold item. cbn [h_cst h_len]. apply (proj2 (P F)).
      pose proof (identifier_length _ _ _ I1). rewrite !app_length in *. cbn [length] in *. lia.
  - intros d F. split.
    + intros [|f] L; [lia|]. reflexivity.
    + intros [|f] t L; [lia|]. reflexivity.
  - intros d v w v' w' Hw R Hn _ P F. apply fits_app in F. destruct F as [F1 F2]. specialize (R eq_refl F1). destruct (P F2) as [P1 P2]. pose proof (string_length _ _ _ _ Hw) as L2. split.
    + intros [|f] L; [lia|]. destruct (is_eoc_false w Hn L2 w') as [E1 E2]. rewrite collect_step by assumption. rewrite app_length in L.
      destruct (R f w') as (h & u & -> & _ & ->); [rewrite app_length; lia|]. rewrite P1 by lia. reflexivity.
    + intros [|f] t L; [lia|]. rewrite <- app_assoc. destruct (is_eoc_false w Hn L2 (w' ++ [0; 0] ++ t)) as [E1 E2]. rewrite collect_step by assumption. rewrite <- app_assoc in L.
      destruct (R f (w' ++ [0; 0] ++ t)) as (h & u & -> & _ & ->); [lia|]. rewrite P2; [reflexivity|]. rewrite (app_length w) in L. lia.
Qed.
Lemma get_octets_complete s w t : ber_octets true s w -> fits w -> get_octets (w ++ t) = Some (s, t).
Proof.
  intros H F. unfold ber_octets in H. inversion H as [? ? id l c I1 D|d ? c ? ? P (id & I1 & [(l & D & E)|E])]; subst; unfold get_octets; rewrite <- !app_assoc;
    apply fits_app in F; destruct F as [_ F]; apply fits_app in F; destruct F as [_ F].
  - rewrite (get_header_definite 4 false _ (length s)); [|exact I1|exact D|exact F|rewrite app_length; lia]. change (is_tag 4 _) with true. cbn [negb h_cst h_len]. destruct (take_app s t) as [-> ->]. reflexivity.
  - rewrite (get_header_definite 4 true _ (length c)); [|exact I1|exact D|exact F|rewrite app_length; lia]. change (is_tag 4 _) with true. cbn [negb h_cst h_len]. destruct (take_app c t) as [-> ->].
    rewrite (proj1 (proj2 both_complete _ _ _ P F)) by lia. reflexivity.
  - apply fits_app in F. destruct F as [F _]. rewrite (get_header_indefinite 4) by exact I1. change (is_tag 4 _) with true. cbn [negb h_cst h_len].
    apply (proj2 (proj2 both_complete _ _ _ P F)). lia.
Qed.
Lemma get_tlv_complete tag c w t : ber_primitive true tag c w -> fits w -> get_tlv tag (w ++ t) = Some (c, t).
Proof.
  intros (id & l & I1 & D & ->) F. unfold get_tlv. rewrite <- !app_assoc. apply fits_app in F. destruct F as [_ F]. apply fits_app in F. destruct F as [_ F].
  rewrite (get_header_definite tag false _ (length c)); [|exact I1|exact D|exact F|rewrite app_length; lia]. unfold is_tag. cbn [h_tag h_class h_cst h_len]. rewrite N.eqb_refl. cbn.
  destruct (take_app c t) as [-> ->]. reflexivity.
Qed.
Lemma int_value_complete c : shortest c -> int_value c = Some (twos_complement c).
Proof.
  intros [N0 H]. destruct c as [|b [|b' c]]; [contradiction| |].
  - unfold int_value, twos_complement. cbn [hd length]. replace (be_val [b]) with b by (unfold be_val; cbn; lia). reflexivity.
  - destruct (H b b' c eq_refl) as [H1 H2]. unfold int_value, twos_complement. cbn [hd].
    destruct ((b =? 0) && (b' <? 128) || (b =? 255) && (128 <=? b')) eqn:E; [|reflexivity].
    apply orb_prop in E. destruct E as [E|E]; apply andb_prop in E; destruct E as [E1 E2]; apply N.eqb_eq in E1; [apply N.ltb_lt in E2|apply N.leb_le in E2]; exfalso; [apply H1|apply H2]; split; assumption.
Qed.
Lemma get_int_complete x w t : ber_integer true x w -> fits w -> get_int (w ++ t) = Some (x, t).
Proof. intros (c & S & <- & P) F. unfold get_int. rewrite (get_tlv_complete _ _ _ _ P F), (int_value_complete _ S). reflexivity. Qed.
Lemma get_oid_complete c w t : ber_oid true c w -> fits w -> get_oid (w ++ t) = Some (c, t).
Proof. intros (O & P) F. unfold get_oid. rewrite (get_tlv_complete _ _ _ _ P F). apply oid_ok_spec in O. rewrite O. reflexivity. Qed.
Lemma get_seq_complete {A} (f : list N -> option (A * list N)) parts w x t : ber_sequence true parts w -> fits w ->
  (fits (concat parts) -> forall r, r = [] \/ is_eoc r = true -> f (concat parts ++ r) = Some (x, r)) -> get_seq f (w ++ t) = Some (x, t).
Proof.
  intros (id & I1 & [(l & D & ->)| ->]) F H; unfold get_seq; rewrite <- !app_assoc; apply fits_app in F; destruct F as [_ F]; apply fits_app in F; destruct F as [_ F].
  - rewrite (get_header_definite 16 true _ (length (concat parts))); [|exact I1|exact D|exact F|rewrite app_length; lia]. change (is_tag 16 _ && _) with true. cbn [h_len].
    destruct (take_app (concat parts) t) as [-> ->]. rewrite <- (app_nil_r (concat parts)), (H F [] (or_introl eq_refl)). reflexivity.
  - apply fits_app in F. destruct F as [F _]. rewrite (get_header_indefinite 16) by exact I1. change (is_tag 16 _ && _) with true. cbn [h_len].
    rewrite (H F ([0; 0] ++ t) (or_intror eq_refl)). reflexivity.
Qed.
(** The first header tells the alternatives of a choice apart. *)
Lemma primitive_header tag c w t : ber_primitive true tag c w -> fits w -> exists h u, get_header (w ++ t) = Some (h, u) /\ is_tag tag h = true.
Proof.
  intros (id & l & I1 & D & ->) F. rewrite <- !app_assoc. apply fits_app in F. destruct F as [_ F]. apply fits_app in F. destruct F as [_ F].
  rewrite (get_header_definite tag false _ (length c)); [|exact I1|exact D|exact F|rewrite app_length; lia]. eexists _, _. split; [reflexivity|]. unfold is_tag. cbn [h_tag h_class]. rewrite N.eqb_refl. reflexivity.
Qed.
Lemma sequence_header parts w t : ber_sequence true parts w -> fits w -> exists h u, get_header (w ++ t) = Some (h, u) /\ is_tag 2 h = false /\ is_tag 6 h = false.
Proof.
  intros (id & I1 & [(l & D & ->)| ->]) F; rewrite <- !app_assoc; apply fits_app in F; destruct F as [_ F]; apply fits_app in F; destruct F as [_ F].
  - rewrite (get_header_definite 16 true _ (length (concat parts))); [|exact I1|exact D|exact F|rewrite app_length; lia]. eexists _, _. split; [reflexivity|]. split; reflexivity.
  - rewrite (get_header_indefinite 16) by exact I1. eexists _, _. split; [reflexivity|]. split; reflexivity.
Qed.
Ltac fit := repeat match goal with F : fits (concat _) |- _ => cbn [concat] in F | F : fits (_ ++ _) |- _ => apply fits_app in F; destruct F end.
Lemma get_middle_complete p w t : ber_middle true p w -> fits w -> get_middle (w ++ t) = Some (p, t).
Proof.
  intros H F. unfold get_middle. destruct p as [k|k j x]; cbn [ber_middle] in H.
  - destruct H as (c & S & V & P). destruct (primitive_header _ _ _ t P F) as (h & u & -> & ->). rewrite (get_int_complete k w t); [reflexivity| |exact F]. exists c. repeat (split; [assumption|]). exact P.
  - destruct H as (wk & wj & wl & K & J & L & S). destruct (sequence_header _ _ t S F) as (h & u & -> & -> & _). apply (get_seq_complete _ _ _ _ _ S F).
    clear F. intros F r _. fit. cbn [concat]. rewrite app_nil_r, <- !app_assoc. unfold get_pentanomial. rewrite (get_int_complete k), (get_int_complete j), (get_int_complete x) by assumption. reflexivity.
Qed.
Lemma get_field_complete f w t : ber_field true f w -> fits w -> get_field (w ++ t) = Some (f, t).
Proof.
  intros (wm & wp & M & P & S) F. apply (get_seq_complete _ _ _ _ _ S F). clear F. intros F r _. fit. cbn [concat]. rewrite app_nil_r, <- !app_assoc.
  rewrite (get_int_complete (bf_m f)), (get_middle_complete (bf_poly f)) by assumption. destruct f. reflexivity.
Qed.
Lemma get_custom_complete c w t : ber_custom true c w -> fits w -> get_custom (w ++ t) = Some (c, t).
Proof.
  intros (wf & wa & wb & wn & wbp & H1 & H2 & H3 & H4 & H5 & S) F. apply (get_seq_complete _ _ _ _ _ S F). clear F. intros F r _. fit. cbn [concat]. rewrite app_nil_r, <- !app_assoc.
  rewrite (get_field_complete (cu_field c)), (get_int_complete (cu_a c)), (get_octets_complete (cu_b c)), (get_int_complete (cu_n c)), (get_octets_complete (cu_bp c)) by assumption. destruct c. reflexivity.
Qed.
Lemma eoc_not_string d v w r : ber_string true d (Some 4) v w -> is_eoc (w ++ r) = false /\ exists b u, w ++ r = b :: u.
Proof.
  intros H. assert (X : exists b u, w = b :: u /\ b <> 0).
  { inversion H as [? ? id l c I1 D|d0 ? c ? ? P (id & I1 & [(l & D & E)|E])]; subst; destruct (identifier_strict _ _ _ I1) as (b & -> & Hb & _); eexists _, _; (split; [reflexivity|]); intros ->; discriminate. }
  destruct X as (b & u & -> & Hb). split; [|eexists _, _; reflexivity]. cbn [app is_eoc]. destruct b; [contradiction|reflexivity].
Qed.
Lemma get_params_complete p w t : ber_params true p w -> fits w -> get_params (w ++ t) = Some (p, t).
Proof.
  intros (wc & ws & C & Q & S) F. apply (get_seq_complete _ _ _ _ _ S F). clear F. intros F r Hr. fit. cbn [concat]. rewrite <- !app_assoc.
  assert (X : forall r, get_curvespec (wc ++ r) = Some (ap_curve p, r)).
  { clear r Hr. intros r. unfold get_curvespec. destruct (ap_curve p) as [o|c].
    - destruct (primitive_header _ _ _ r (proj2 C)) as (h & u & -> & ->); [assumption|]. rewrite (get_oid_complete o) by assumption. reflexivity.
    - assert (Y : exists parts, ber_sequence true parts wc) by (destruct C as (? & ? & ? & ? & ? & _ & _ & _ & _ & _ & C); eexists; exact C). destruct Y as (parts & Y).
      destruct (sequence_header _ _ r Y) as (h & u & -> & _ & ->); [assumption|]. rewrite (get_custom_complete c) by assumption. reflexivity. }
  rewrite X. destruct p as [c [s|]]; cbn [ap_curve ap_sbox] in *.
  - destruct Q as (v & V & ->). cbn [concat]. rewrite app_nil_r. destruct (eoc_not_string _ _ _ r V) as [E1 (b & u & E2)]. rewrite E2. rewrite <- E2, E1.
    cbn [concat] in *. fit. rewrite (get_octets_complete s) by assumption. reflexivity.
  - subst ws. cbn [concat app]. destruct Hr as [-> |Hr]; [reflexivity|]. rewrite Hr. destruct r; [discriminate|reflexivity].
Qed.
Lemma d2i_params_complete p w t : ber_params true p w -> N.of_nat (length w) < 2 ^ 31 -> d2i_params (w ++ t) = Some p.
Proof. intros H F. unfold d2i_params. rewrite (get_params_complete p); [reflexivity|exact H|]. unfold fits. eapply N.lt_trans; [exact F|reflexivity]. Qed.
Lemma d2i_octets_complete s w t : ber_octets true s w -> N.of_nat (length w) < 2 ^ 31 -> d2i_octets (w ++ t) = Some s.
Proof. intros H F. unfold d2i_octets. rewrite (get_octets_complete s); [reflexivity|exact H|]. unfold fits. eapply N.lt_trans; [exact F|reflexivity]. Qed.
(** An empty string with a length of more octets is refused when nothing follows it. *)
Lemma empty_long k : d2i_octets (4 :: N.of_nat (128 + k) :: repeat 0 k) = None.
Proof.
  unfold d2i_octets, get_octets, get_header. change (4 mod 32 =? 31) with false. cbn match. cbn [get_len].
  destruct (N.ltb_spec (N.of_nat (128 + k)) 128); [lia|]. replace (N.to_nat (N.of_nat (128 + k) - 128)) with k by lia. destruct (Nat.eqb_spec k 0) as [->|Hk]; [reflexivity|].
  destruct (Nat.ltb_spec (length (repeat 0 k)) (k + 1)); [reflexivity|]. rewrite repeat_length in *. lia.
Qed.
(** A part of any tag is taken for a part of the string. *)
Lemma foreign_part b c : b < 256 -> b mod 32 <> 31 -> N.testbit b 5 = false -> b <> 0 -> (length c < 126)%nat ->
  d2i_octets ([0x24; N.of_nat (length c + 2); b; N.of_nat (length c)] ++ c) = Some c.
Proof.
  intros Hb H1 H2 H3 L. unfold d2i_octets, get_octets. cbn [app]. 
  assert (E : get_header (36 :: N.of_nat (length c + 2) :: b :: N.of_nat (length c) :: c) = Some (HEADER 4 0 true (Some (N.of_nat (length c + 2))), b :: N.of_nat (length c) :: c)).
  { unfold get_header. change (36 mod 32 =? 31) with false. cbn match. cbn [get_len]. destruct (N.ltb_spec (N.of_nat (length c + 2)) 128); [|lia]. cbn match.
    destruct (N.ltb_spec (N.of_nat (length (b :: N.of_nat (length c) :: c))) (N.of_nat (length c + 2))) as [Q|Q]; [cbn [length] in Q; lia|]. reflexivity. }
  rewrite E. change (is_tag 4 _) with true. cbn [negb h_cst h_len].
  rewrite <- (app_nil_r (b :: N.of_nat (length c) :: c)). destruct (take_nat (b :: N.of_nat (length c) :: c) [] (N.of_nat (length c + 2))) as [-> ->]; [cbn [length]; lia|].
  rewrite collect_step; [|discriminate|cbn [is_eoc]; destruct b; [contradiction|reflexivity]].
  assert (E2 : get_header (b :: N.of_nat (length c) :: c) = Some (HEADER (b mod 32) (b / 64) false (Some (N.of_nat (length c))), c)).
  { unfold get_header. destruct (N.eqb_spec (b mod 32) 31); [contradiction|]. cbn [get_len]. destruct (N.ltb_spec (N.of_nat (length c)) 128); [|lia].
    destruct (N.ltb_spec (N.of_nat (length c)) (N.of_nat (length c))); [lia|]. rewrite H2. reflexivity. }
  rewrite E2. unfold item. cbn [h_cst h_len]. rewrite Nat2N.id, firstn_all, skipn_all. cbn [length collect]. rewrite app_nil_r. reflexivity.
Qed.
Lemma foreign_not_ber b c : N.testbit b 5 = false -> b <> 4 -> (length c < 126)%nat ->
  ~ exists w t v, [0x24; N.of_nat (length c + 2); b; N.of_nat (length c)] ++ c = w ++ t /\ ber_octets true v w.
Proof.
  intros H2 H4 L (w & t & v & E & S). unfold ber_octets in S. cbn [app] in E.
  assert (K : forall d v w, ber_parts true d v w -> w = [] \/ exists x r, w = x :: r /\ x mod 32 = 4 /\ x / 64 = 0).
  { clear. intros d v w H. destruct H as [|d v w v' w' H _ _]; [left; reflexivity|]. right.
    inversion H as [? ? id l c I1 D|? ? c ? ? P (id & I1 & [(l & D & E)|E])]; subst; destruct (identifier_strict _ _ _ I1) as (x & -> & X1 & _ & X2 & _); eexists _, _; (split; [reflexivity|]); split; assumption. }
  inversion S as [? ? id l c' I1 D|d ? c' ? ? P (id & I1 & [(l & D & E')|E'])]; subst; destruct (identifier_strict _ _ _ I1) as (x & -> & _ & _ & _ & X); cbn [app] in E; injection E as <- E.
  - discriminate X.
  - assert (Y : length c' = (length c + 2)%nat /\ exists r, b :: N.of_nat (length c) :: c = c' ++ r).
    { destruct D as [[_ ->]|(ds & -> & _)]; cbn [app] in E; injection E as E1 E; [|lia]. split; [lia|]. exists t. exact E. }
    destruct Y as [Y1 (r & Y2)]. destruct (K _ _ _ P) as [-> |(x & r' & -> & X1 & X2)]; [cbn in Y1; lia|]. injection Y2 as -> _.
    pose proof (N.div_mod x 64 ltac:(lia)) as DM. rewrite X2 in DM. assert (XL : x < 64) by (pose proof (N.mod_lt x 64 ltac:(lia)); lia).
    pose proof (N.div_mod x 32 ltac:(lia)) as DM2. assert (x / 32 < 2) by (apply N.div_lt_upper_bound; lia). rewrite X1 in DM2.
    assert (x = 4 \/ x = 36) as [->| ->] by lia; [contradiction|discriminate H2].
  - lia.
Qed.
