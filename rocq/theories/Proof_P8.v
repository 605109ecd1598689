(** What the decoders of PKCS#8, public keys and encrypted keys read. *)
From Coq Require Import ZArith List Lia.
Import ListNotations.
From Verif Require Import Base Lib Model_Gf2m Model_Utils Model_Asn1 Model_Pmeth Model_Key Model_Ameth Model_Key6 Model_Iit Model_KeyFile Model_P8 Spec_Asn1 Spec_Ber Spec_KeyFile Spec_P8 Proof_Asn1 Proof_Ber Proof_KeyFile.
Open Scope N_scope.

(** Everything that is written is read. *)
Lemma identifier_any cst id : identifier true None cst id -> exists b, id = [b] /\ b mod 32 <> 31 /\ N.testbit b 5 = cst.
Proof. intros (b & more & n & -> & Hb & Hc & [(H1 & -> & ->)|(X & _)] & _); [|discriminate]. exists b. auto. Qed.
Lemma header_any cst id n u r : identifier true None cst id -> definite true n u -> N.of_nat n < 2 ^ 63 -> (n <= length r)%nat ->
  exists tag class, get_header (id ++ u ++ r) = Some (HEADER tag class cst (Some (N.of_nat n)), r).
Proof.
  intros I1 D F L. destruct (identifier_any _ _ I1) as (b & -> & Hb & <-). exists (b mod 32), (b / 64). cbn [app get_header]. destruct (N.eqb_spec (b mod 32) 31); [contradiction|].
  rewrite (get_len_complete _ _ _ D F L). cbn match. destruct (N.ltb_spec (N.of_nat (length r)) (N.of_nat n)); [lia|reflexivity].
Qed.
Lemma header_any_marked id r : identifier true None true id -> exists tag class, get_header (id ++ [128] ++ r) = Some (HEADER tag class true None, r).
Proof.
  intros I1. destruct (identifier_any _ _ I1) as (b & -> & Hb & E). exists (b mod 32), (b / 64). cbn [app get_header]. destruct (N.eqb_spec (b mod 32) 31); [contradiction|].
  cbn [get_len]. change (128 <? 128) with false. change (N.to_nat (128 - 128) =? 0)%nat with true. cbn match. cbn [h_cst]. rewrite E. reflexivity.
Qed.
Lemma identifier_none strict tag cst id : identifier strict tag cst id -> identifier strict None cst id.
Proof. intros (b & more & n & H1 & H2 & H3 & H4 & _). exists b, more, n. auto. Qed.

Scheme element_ind2 := Induction for ber_element Sort Prop with elements_ind2 := Induction for ber_elements Sort Prop.
Combined Scheme element_both from element_ind2, elements_ind2.

Lemma definite_pos s n u : definite s n u -> (1 <= length u)%nat.
Proof. intros [[_ ->]|(ds & -> & _)]; cbn; lia. Qed.
Lemma element_length s tag cst w : ber_element s tag cst w -> (length w >= 2)%nat.
Proof.
  intros H. destruct H as [tag cst id l c (b & more & n & -> & _) D|tag id c (b & more & n & -> & _) _]; rewrite ?app_length; cbn [length]; [pose proof (definite_pos _ _ _ D)|]; rewrite ?app_length; cbn [length]; lia.
Qed.
(** Walking over elements. *)
Definition walked (w : list N) : Prop := forall f k r, (length (w ++ r) < f)%nat -> exists f', (length r < f')%nat /\ find_end f k (w ++ r) = find_end f' k r.
Lemma elements_walked : (forall tag cst w, ber_element true tag cst w -> fits w -> (forall t, w <> 0 :: 0 :: t) -> walked w) /\ (forall w, ber_elements true w -> fits w -> walked w).
Proof.
  apply (element_both true (fun tag cst w _ => fits w -> (forall t, w <> 0 :: 0 :: t) -> walked w) (fun w _ => fits w -> walked w)).
  - intros tag cst id l c I1 D F NE f k r L. pose proof (is_eoc_false _ NE (element_length true tag cst _ (el_known true tag cst id l c I1 D)) r) as [E1 E2].
    destruct f as [|f]; [lia|]. exists f. split; [rewrite !app_length in L; destruct I1 as (b & more & n & -> & _); cbn [length] in L; lia|].
    cbn [find_end]. destruct ((id ++ l ++ c) ++ r) as [|x y] eqn:X; [congruence|]. rewrite <- X in *. clear X. rewrite E1. rewrite <- !app_assoc.
    apply fits_app in F. destruct F as [_ F]. apply fits_app in F. destruct F as [_ F].
    destruct (header_any cst id (length c) l (c ++ r) (identifier_none _ _ _ _ I1) D F) as (tg & cl & ->); [rewrite app_length; lia|]. cbn [h_len]. destruct (take_nat c r _ eq_refl) as [_ ->]. reflexivity.
  - intros tag id c I1 _ IH F NE f k r L. assert (Lw : (length (id ++ [128%N] ++ c ++ [0%N; 0%N]) >= 2)%nat) by (destruct I1 as (b & more & n & -> & _); rewrite !app_length; cbn; lia).
    pose proof (is_eoc_false _ NE Lw r) as [E1 E2]. destruct f as [|f]; [lia|]. cbn [find_end]. destruct ((id ++ [128] ++ c ++ [0; 0]) ++ r) as [|x y] eqn:X; [congruence|]. rewrite <- X in *. clear X. rewrite E1.
    rewrite <- !app_assoc in *. apply fits_app in F. destruct F as [_ F]. apply fits_app in F. destruct F as [_ F]. apply fits_app in F. destruct F as [F _].
    destruct (header_any_marked id (c ++ [0; 0] ++ r) (identifier_none _ _ _ _ I1)) as (tg & cl & ->). cbn [h_len].
    destruct (IH F f (S k) ([0; 0] ++ r)) as (f' & L' & ->); [rewrite !app_length in *; destruct I1 as (b & more & n & -> & _); cbn [length] in *; lia|].
    destruct f' as [|f']; [lia|]. exists f'. split; [cbn [app length] in L'; lia|]. reflexivity.
  - intros _ f k r L. exists f. split; [exact L|reflexivity].
  - intros cst w w' _ IH NE _ IH' F f k r L. apply fits_app in F. destruct F as [F F']. rewrite <- app_assoc in *. destruct (IH F NE f k (w' ++ r) L) as (f1 & L1 & ->). exact (IH' F' f1 k r L1).
Qed.
Lemma find_end_complete c r : ber_elements true c -> fits c -> find_end (S (length (c ++ [0; 0] ++ r))) 0 (c ++ [0; 0] ++ r) = Some r.
Proof.
  intros H F. destruct (proj2 elements_walked c H F (S (length (c ++ [0; 0] ++ r))) 0%nat ([0; 0] ++ r)) as (f & L & ->); [lia|]. destruct f as [|f]; [lia|]. reflexivity.
Qed.
Lemma prefix_enc (w t : list N) : firstn (length (w ++ t) - length t) (w ++ t) = w.
Proof. rewrite app_length. replace (length w + length t - length t)%nat with (length w) by lia. rewrite firstn_app, firstn_all, Nat.sub_diag, firstn_O, app_nil_r. reflexivity. Qed.
Lemma any_structure n w t : n = 16 \/ n = 17 -> ber_element true (Some n) true w -> fits w -> get_any (w ++ t) = Some (ANY (Some n) w w, t).
Proof.
  intros Hn H F. assert (K : kept (Some n) = true) by (destruct Hn as [-> | ->]; reflexivity). pose proof (prefix_enc w t) as P. inversion H as [? ? id l c I1 D|? id c I1 E]; subst.
  - unfold get_any. rewrite <- !app_assoc in *. apply fits_app in F. destruct F as [_ F]. apply fits_app in F. destruct F as [_ F].
    rewrite (get_header_definite n true id (length c) l (c ++ t) I1 D F) by (rewrite app_length; lia). cbn [h_class h_tag h_cst h_len]. change (0 =? 0) with true. cbn match. rewrite K.
    destruct (take_nat c t _ eq_refl) as [_ ->]. cbn match. rewrite P. reflexivity.
  - unfold get_any. rewrite <- !app_assoc in *. apply fits_app in F. destruct F as [_ F]. apply fits_app in F. destruct F as [_ F]. apply fits_app in F. destruct F as [F _].
    rewrite (get_header_indefinite n id (c ++ [0; 0] ++ t) I1). cbn [h_class h_tag h_cst h_len]. change (0 =? 0) with true. cbn match. rewrite K.
    rewrite (find_end_complete c t E F). cbn match. rewrite P. reflexivity.
Qed.
Lemma any_primitive n c w t : kept (Some n) = false -> c2i_ok (Some n) c = true -> ber_primitive true n c w -> fits w -> get_any (w ++ t) = Some (ANY (Some n) c w, t).
Proof.
  intros K C (id & l & I1 & D & ->) F. pose proof (prefix_enc (id ++ l ++ c) t) as P. unfold get_any. rewrite <- !app_assoc in *. apply fits_app in F. destruct F as [_ F]. apply fits_app in F. destruct F as [_ F].
  rewrite (get_header_definite n false id (length c) l (c ++ t) I1 D F) by (rewrite app_length; lia). cbn [h_class h_tag h_cst h_len]. change (0 =? 0) with true. cbn match. rewrite K. cbn [andb].
  unfold get_content. cbn [h_cst h_len]. destruct (take_nat c t _ eq_refl) as [-> ->]. rewrite C, P. reflexivity.
Qed.
Lemma any_octets s w t : ber_octets true s w -> fits w -> get_any (w ++ t) = Some (ANY (Some 4) s w, t).
Proof.
  intros H F. pose proof (get_octets_complete s w t H F) as G. pose proof (prefix_enc w t) as P. unfold get_octets in G. unfold get_any. destruct (get_header (w ++ t)) as [[h u]|]; [|discriminate].
  unfold is_tag in G. destruct (N.eqb_spec (h_tag h) 4) as [T|T]; [|discriminate]. destruct (N.eqb_spec (h_class h) 0) as [Cl|Cl]; [|discriminate]. cbn [andb negb] in G. rewrite T. cbn [kept]. change ((4 =? 16) || (4 =? 17)) with false.
  change (never_cst 4) with false. rewrite Bool.andb_false_r. cbn match. unfold get_content. 
  match goal with |- match ?X with _ => _ end = _ => replace X with (Some (s, t)) by (symmetry; exact G) end. change (c2i_ok (Some 4) s) with true. cbn match. rewrite P. reflexivity.
Qed.
Lemma clear_bits b u : b < 256 -> u <= 7 -> N.land b (N.shiftl 255 u) = b - b mod 2 ^ u.
Proof.
  intros Hb Hu. assert (X : forallb (fun b => forallb (fun u => N.land (N.of_nat b) (N.shiftl 255 (N.of_nat u)) =? N.of_nat b - N.of_nat b mod 2 ^ N.of_nat u) (seq 0 8)) (seq 0 256) = true) by (vm_compute; reflexivity).
  rewrite forallb_forall in X. specialize (X (N.to_nat b)). rewrite in_seq in X. specialize (X ltac:(lia)). rewrite forallb_forall in X. specialize (X (N.to_nat u)). rewrite in_seq, !N2Nat.id in X.
  specialize (X ltac:(lia)). apply N.eqb_eq, X.
Qed.
Lemma bits_complete u s v : bits_say u s v -> bits (u :: s) = v.
Proof.
  intros (U & B & [[-> ->]|(t & b & -> & ->)]); [reflexivity|]. cbn [bits]. rewrite rev_app_distr. cbn [rev app]. rewrite rev_involutive. apply bytes_app in B. destruct B as [_ B]. inversion B; subst.
  rewrite clear_bits by assumption. reflexivity.
Qed.
Lemma bits_c2i u s v : bits_say u s v -> c2i_ok (Some 3) (u :: s) = true.
Proof. intros (U & _). cbn. apply N.leb_le, U. Qed.
Lemma get_bits_complete v w t : ber_bits true v w -> fits w -> get_bits (w ++ t) = Some (v, t).
Proof.
  intros (u & s & B & H) F. pose proof (bits_c2i _ _ _ B) as C. destruct H as (id & l & I1 & D & ->). unfold get_bits. rewrite <- !app_assoc in *. apply fits_app in F. destruct F as [_ F]. apply fits_app in F. destruct F as [_ F].
  rewrite (get_header_definite 3 false id (length (u :: s)) l ((u :: s) ++ t) I1 D F) by (rewrite app_length; lia). unfold is_tag, get_content. cbn [h_class h_tag h_cst h_len].
  destruct (take_nat (u :: s) t _ eq_refl) as [-> ->]. change (negb ((3 =? 3) && (0 =? 0))) with false. cbn match. rewrite C, (bits_complete _ _ _ B). reflexivity.
Qed.
Lemma value_complete v w : ber_value true v w -> fits w -> exists a, (forall t, get_any (w ++ t) = Some (a, t)) /\ any_val a = v /\
  (an_type a = Some 16 -> ber_element true (Some 16) true w) /\ (forall x, v = VOther x -> ber_other x -> an_type a <> Some 16).
Proof.
  intros H F. destruct v as [s|s|x]; cbn [ber_value] in H.
  - exists (ANY (Some 4) s w). split; [intros t; apply any_octets; assumption|]. split; [reflexivity|]. cbn [an_type]. split; [discriminate|discriminate].
  - destruct H as (u & c & B & P). exists (ANY (Some 3) (u :: c) w). split; [intros t; apply any_primitive; [reflexivity|apply (bits_c2i _ _ _ B)|exact P|exact F]|].
    split; [unfold any_val; cbn [an_type an_data]; rewrite (bits_complete _ _ _ B); reflexivity|]. cbn [an_type]. split; discriminate.
  - destruct H as [-> H].
    assert (Prim : forall n c, kept (Some n) = false -> n <> 3 -> n <> 4 -> c2i_ok (Some n) c = true -> ber_primitive true n c w -> exists a, (forall t, get_any (w ++ t) = Some (a, t)) /\ any_val a = VOther w /\ an_type a <> Some 16).
    { intros n c K N3 N4 C P. exists (ANY (Some n) c w). split; [intros t; apply any_primitive; assumption|]. cbn [an_type]. split; [|intros [= ->]; discriminate].
      unfold any_val. cbn [an_type an_enc]. destruct n as [|[[[?|?|]|?|]|[?|[?|?|]|]|]]; try reflexivity; congruence. }
    assert (Other : ber_other w -> exists a, (forall t, get_any (w ++ t) = Some (a, t)) /\ any_val a = VOther w /\ an_type a <> Some 16).
    { intros [E|[(z & c & S & V & P)|[(c & O & P)|[P|[(b & P)|(n & c & I1 & P)]]]]].
      - exists (ANY (Some 17) w w). split; [intros t; apply any_structure; auto|]. split; [reflexivity|discriminate].
      - apply (Prim 2 c); try discriminate; try reflexivity; [|exact P]. change (c2i_ok (Some 2) c) with (match int_value c with Some _ => true | None => false end). rewrite (int_value_complete _ S). reflexivity.
      - apply (Prim 6 c); try discriminate; try reflexivity; [|exact P]. change (c2i_ok (Some 6) c) with (oid_ok c). apply oid_ok_spec, O.
      - apply (Prim 5 []); try discriminate; try reflexivity. exact P.
      - apply (Prim 1 [b]); try discriminate; try reflexivity. exact P.
      - apply (Prim n c); [| | | |exact P]; cbn [In] in I1; repeat destruct I1 as [<- |I1]; try contradiction; try reflexivity; discriminate. }
    destruct H as [H|H].
    + exists (ANY (Some 16) w w). split; [intros t; apply any_structure; auto|]. split; [reflexivity|]. cbn [an_type]. split; [intros _; exact H|].
      intros x [= <-] O. exfalso. destruct (Other O) as (a & E & _ & T). specialize (E []); rewrite (any_structure 16 w []) in E by auto. injection E as <-. apply T. reflexivity.
    + destruct (Other H) as (a & E & V & T). exists a. split; [exact E|]. split; [exact V|]. split; [congruence|]. intros _ _ _. exact T.
Qed.
(** Sets. *)
Definition item_ok {A} (item : list N -> option (A * list N)) (x : A) (w : list N) : Prop := w <> [] /\ forall r, is_eoc (w ++ r) = false /\ item (w ++ r) = Some (x, r).
Lemma items_complete {A} (item : list N -> option (A * list N)) xs ws : Forall2 (item_ok item) xs ws ->
  (forall f, (length (concat ws) < f)%nat -> get_items item f false (concat ws) = Some (xs, [])) /\
  (forall f r, (length (concat ws) < f)%nat -> get_items item f true (concat ws ++ [0; 0] ++ r) = Some (xs, r)).
Proof.
  intros H. induction H as [|x w xs ws (NE & H) _ [IH1 IH2]]; cbn [concat].
  - split; intros f; [intros L|intros r L]; (destruct f as [|f]; [cbn in L; lia|reflexivity]).
  - split; intros f.
    + intros L. destruct f as [|f]; [lia|]. cbn [get_items]. destruct (H (concat ws)) as [E1 E2]. rewrite app_length in L. destruct (w ++ concat ws) as [|a b] eqn:X; [destruct w; [congruence|discriminate]|]. rewrite E1, E2.
      rewrite IH1; [reflexivity|]. clear X. destruct w; [congruence|]. cbn [length] in L. lia.
    + intros r L. destruct f as [|f]; [lia|]. cbn [get_items]. rewrite <- app_assoc. destruct (H (concat ws ++ [0; 0] ++ r)) as [E1 E2]. destruct (w ++ concat ws ++ [0; 0] ++ r) as [|a b] eqn:X; [destruct w; [congruence|discriminate]|].
      rewrite E1, E2. rewrite IH2; [reflexivity|]. rewrite app_length in L. clear X. destruct w; [congruence|]. cbn [length] in L. lia.
Qed.
Lemma ident_eoc n cst id r : identifier true (Some n) cst id -> n <> 0 -> id ++ r <> [] /\ is_eoc (id ++ r) = false.
Proof.
  intros I1 H. destruct (identifier_strict _ _ _ I1) as (b & -> & Hb & _). split; [discriminate|]. cbn [app is_eoc]. destruct b; [exfalso; apply H; rewrite <- Hb; reflexivity|reflexivity].
Qed.
Lemma constructed_eoc n c w r : ber_constructed true (Some n) c w -> n <> 0 -> w <> [] /\ is_eoc (w ++ r) = false.
Proof.
  intros (id & I1 & H) N0. assert (exists v, w = id ++ v) as [v ->] by (destruct H as [(l & _ & ->)| ->]; eexists; reflexivity). rewrite <- app_assoc. split; [apply (ident_eoc n true id v I1 N0)|apply (ident_eoc n true id (v ++ r) I1 N0)].
Qed.
Lemma primitive_eoc n c w r : ber_primitive true n c w -> n <> 0 -> w <> [] /\ is_eoc (w ++ r) = false.
Proof. intros (id & l & I1 & _ & ->) N0. rewrite <- app_assoc. split; [apply (ident_eoc n false id _ I1 N0)|apply (ident_eoc n false id _ I1 N0)]. Qed.
Lemma element_eoc n cst w r : ber_element true (Some n) cst w -> n <> 0 -> w <> [] /\ is_eoc (w ++ r) = false.
Proof.
  intros H N0. inversion H as [? ? id l c I1 D|? id c I1 E]; subst; rewrite <- app_assoc.
  - split; [apply (ident_eoc n cst id _ I1 N0)|apply (ident_eoc n cst id _ I1 N0)].
  - split; [apply (ident_eoc n true id _ I1 N0)|apply (ident_eoc n true id _ I1 N0)].
Qed.
Lemma value_eoc v w r : ber_value true v w -> w <> [] /\ is_eoc (w ++ r) = false.
Proof.
  destruct v as [s|s|x]; cbn [ber_value].
  - intros H. destruct (eoc_not_string _ _ _ r H) as [E1 _]. destruct (eoc_not_string _ _ _ [] H) as [_ (b & u & E2)]. rewrite app_nil_r in E2. split; [rewrite E2; discriminate|exact E1].
  - intros (u & c & _ & P). apply (primitive_eoc _ _ _ r P). discriminate.
  - intros [-> [H|[H|[(z & c & _ & _ & P)|[(c & _ & P)|[P|[(b & P)|(n & c & I1 & P)]]]]]]].
    + apply (element_eoc _ _ _ r H). discriminate.
    + apply (element_eoc _ _ _ r H). discriminate.
    + apply (primitive_eoc _ _ _ r P). discriminate.
    + apply (primitive_eoc _ _ _ r P). discriminate.
    + apply (primitive_eoc _ _ _ r P). discriminate.
    + apply (primitive_eoc _ _ _ r P). discriminate.
    + apply (primitive_eoc _ _ _ r P). intros ->. cbn [In] in I1. repeat destruct I1 as [X|I1]; try discriminate; contradiction.
Qed.
Lemma set_known {A} class tag (item : list N -> option (A * list N)) xs ws id l cst t :
  Forall2 (item_ok item) xs ws -> get_header (id ++ l ++ concat ws ++ t) = Some (HEADER tag class cst (Some (N.of_nat (length (concat ws)))), concat ws ++ t) ->
  get_set_of class tag item (id ++ l ++ concat ws ++ t) = Some (xs, t).
Proof.
  intros H E. unfold get_set_of. rewrite E. cbn [h_tag h_class h_len]. rewrite !N.eqb_refl. cbn [andb]. destruct (take_nat (concat ws) t _ eq_refl) as [-> ->].
  rewrite (proj1 (items_complete item xs ws H)) by lia. reflexivity.
Qed.
Lemma set_marked {A} class tag (item : list N -> option (A * list N)) xs ws l cst t :
  Forall2 (item_ok item) xs ws -> get_header l = Some (HEADER tag class cst None, concat ws ++ [0; 0] ++ t) -> get_set_of class tag item l = Some (xs, t).
Proof.
  intros H E. unfold get_set_of. rewrite E. cbn [h_tag h_class h_len]. rewrite !N.eqb_refl. cbn [andb]. apply (proj2 (items_complete item xs ws H)). rewrite app_length. lia.
Qed.
Lemma set_complete {A} (item : list N -> option (A * list N)) xs ws w t : (fits (concat ws) -> Forall2 (item_ok item) xs ws) -> ber_set true ws w -> fits w -> get_set_of 0 17 item (w ++ t) = Some (xs, t).
Proof.
  intros H (id & I1 & [(l & D & ->)| ->]) F; rewrite <- !app_assoc; apply fits_app in F; destruct F as [_ F]; apply fits_app in F; destruct F as [_ F].
  - apply (set_known _ _ _ _ _ _ _ true); [apply H, F|]. apply (get_header_definite 17 true); [exact I1|exact D|exact F|rewrite app_length; lia].
  - apply fits_app in F. destruct F as [F _]. apply (set_marked _ _ _ xs ws _ true); [apply H, F|]. apply (get_header_indefinite 17 id _ I1).
Qed.
Lemma zero_complete {A} (item : list N -> option (A * list N)) xs ws w t : (fits (concat ws) -> Forall2 (item_ok item) xs ws) -> ber_zero true ws w -> fits w ->
  get_set_of 2 0 item (w ++ t) = Some (xs, t) /\ is_eoc (w ++ t) = false /\ w ++ t <> [].
Proof.
  intros H (id & Z & X) F. cbn [zero_tag] in Z. subst id. destruct X as [(l & D & ->)| ->]; (split; [|split; [reflexivity|discriminate]]); rewrite <- !app_assoc; apply fits_app in F; destruct F as [_ F]; apply fits_app in F; destruct F as [_ F].
  - apply (set_known _ _ _ _ _ _ _ true); [apply H, F|]. cbn [app get_header]. change (0xA0 mod 32 =? 31) with false. cbn match. rewrite (get_len_complete _ _ _ D F) by (rewrite app_length; lia). cbn match.
    destruct (N.ltb_spec (N.of_nat (length (concat ws ++ t))) (N.of_nat (length (concat ws)))) as [X|_]; [rewrite app_length in X; lia|]. reflexivity.
  - apply fits_app in F. destruct F as [F _]. apply (set_marked _ _ _ xs ws _ true); [apply H, F|]. reflexivity.
Qed.
Lemma fits_concat {A} (P : A -> list N -> Prop) xs ws : Forall2 P xs ws -> fits (concat ws) -> Forall2 (fun x w => P x w /\ fits w) xs ws.
Proof. intros H. induction H as [|x w xs ws H _ IH]; intros F; [constructor|]. cbn [concat] in F. apply fits_app in F. destruct F as [F1 F2]. constructor; auto. Qed.
Lemma attribute_complete a w t : ber_attribute true a w -> fits w -> get_attribute (w ++ t) = Some (a, t).
Proof.
  intros (o & c & wo & vs & ws & HO & Oc & Hc & HV & HS & S) F. unfold get_attribute. apply (get_seq_complete _ _ _ a t S F). clear F. intros F r _. fit. cbn [concat]. rewrite app_nil_r, <- !app_assoc.
  rewrite (get_oid_complete c) by assumption.
  assert (X : fits (concat vs) -> exists l, map any_val l = at_vals a /\ Forall2 (item_ok get_any) l vs).
  { clear - HV. intros F. apply (fits_concat _ _ _ HV) in F. clear HV. generalize dependent (at_vals a). intros l H. induction H as [|v w l ws [H F] _ (ys & E & Z)]; [exists []; split; [reflexivity|constructor]|].
    destruct (value_complete v w H F) as (y & Y & V & _). exists (y :: ys). split; [cbn [map]; congruence|]. constructor; [|exact Z].
    split; [apply (value_eoc v w [] H)|]. intros r. split; [apply (value_eoc v w r H)|apply Y]. }
  destruct X as (l & E & Z); [destruct HS as (id & _ & [(l & _ & ->)| ->]); fit; assumption|].
  rewrite (set_complete get_any l vs ws r) by auto. rewrite E, (oid_numbers_says _ _ Oc), <- HO. destruct a. reflexivity.
Qed.
Lemma names_complete c o nid : oid_says c o -> names_type o nid -> key_obj2nid c = nid.
Proof.
  assert (Sle : oid_says (key_oid NID_dstu4145le) type_le).
  { split; [repeat constructor|]. exists [[0x2A]; [0x86; 0x24]; [2]; [1]; [1]; [1]; [1]; [3]; [1]; [1]], 1, 2, [804; 2; 1; 1; 1; 1; 3; 1; 1]. split; [|repeat split; vm_compute; congruence].
    assert (X : forall b, b < 128 -> subidentifier [b]) by (intros b H; exists [], b; repeat split; [constructor|exact H|cbn; lia]).
    repeat (apply Forall_cons; [try (apply X; reflexivity)|]); [|apply Forall_nil]. exists [0x86], 0x24. split; [reflexivity|]. split; [repeat constructor; lia|]. split; [reflexivity|discriminate]. }
  assert (Sbe : oid_says (key_oid NID_dstu4145be) type_be).
  { split; [repeat constructor|]. exists [[0x2A]; [0x86; 0x24]; [2]; [1]; [1]; [1]; [1]; [3]; [1]; [1]; [1]; [1]], 1, 2, [804; 2; 1; 1; 1; 1; 3; 1; 1; 1; 1]. split; [|repeat split; vm_compute; congruence].
    assert (X : forall b, b < 128 -> subidentifier [b]) by (intros b H; exists [], b; repeat split; [constructor|exact H|cbn; lia]).
    repeat (apply Forall_cons; [try (apply X; reflexivity)|]); [|apply Forall_nil]. exists [0x86], 0x24. split; [reflexivity|]. split; [repeat constructor; lia|]. split; [reflexivity|discriminate]. }
  intros HO H. unfold key_obj2nid. destruct (list_eq_dec N.eq_dec c (key_oid NID_dstu4145le)) as [-> |N1].
  - pose proof (oid_numbers_says _ _ HO) as E. vm_compute in E. subst o. destruct H as [[-> _]|[[_ X]|(_ & X & _)]]; [reflexivity|discriminate X|contradiction X; reflexivity].
  - destruct (list_eq_dec N.eq_dec c (key_oid NID_dstu4145be)) as [-> |N2].
    + pose proof (oid_numbers_says _ _ HO) as E. vm_compute in E. subst o. destruct H as [[_ X]|[[-> _]|(_ & _ & X)]]; [discriminate X|reflexivity|contradiction X; reflexivity].
    + destruct H as [[_ ->]|[[_ ->]|(-> & _)]]; [|  |reflexivity]; exfalso; [apply N1|apply N2]; eapply oid_unique; eassumption.
Qed.
Lemma names_sound c o : oid_says c o -> names_type o (key_obj2nid c).
Proof.
  intros HO. unfold key_obj2nid. destruct (list_eq_dec N.eq_dec c (key_oid NID_dstu4145le)) as [-> |N1].
  - left. split; [reflexivity|]. rewrite <- (oid_numbers_says _ _ HO). reflexivity.
  - destruct (list_eq_dec N.eq_dec c (key_oid NID_dstu4145be)) as [-> |N2].
    + right. left. split; [reflexivity|]. rewrite <- (oid_numbers_says _ _ HO). reflexivity.
    + right. right. split; [reflexivity|]. split; intros ->.
      * assert (E : key_obj2nid c = 1158%Z) by (apply (names_complete c type_le); [exact HO|left; auto]). unfold key_obj2nid in E.
        destruct (list_eq_dec N.eq_dec c (key_oid NID_dstu4145le)); [contradiction|]. destruct (list_eq_dec N.eq_dec c (key_oid NID_dstu4145be)); [contradiction|]. discriminate.
      * assert (E : key_obj2nid c = 1159%Z) by (apply (names_complete c type_be); [exact HO|right; left; auto]). unfold key_obj2nid in E.
        destruct (list_eq_dec N.eq_dec c (key_oid NID_dstu4145le)); [contradiction|]. destruct (list_eq_dec N.eq_dec c (key_oid NID_dstu4145be)); [contradiction|]. discriminate.
Qed.
Lemma algor_complete o nid prm w t : names_type o nid -> ber_algor true o prm w -> fits w ->
  exists a, get_algor (w ++ t) = Some (a, t) /\ algor_of a = ALGOR nid prm /\ oid_numbers (fst a) = o.
Proof.
  intros HN (c & wo & ws & Oc & Hc & Hp & S) F.
  assert (X : exists v, (forall x, match v with Some v => match an_type v with Some 16 => Some (an_data v) | _ => None end | None => None end = x -> x = prm) /\
     (fits (concat (wo :: ws)) -> forall r, r = [] \/ is_eoc r = true -> 
      match get_oid (concat (wo :: ws) ++ r) with
      | None => None
      | Some (o, []) => Some ((o, None), [])
      | Some (o, l) => if is_eoc l then Some ((o, None), l) else match get_any l with Some (a, l) => Some ((o, Some a), l) | None => None end
      end = Some ((c, v), r))).
  { assert (Val : forall w v, ws = [w] -> fits (concat (wo :: ws)) -> ber_value true v w -> exists a, any_val a = v /\ (an_type a = Some 16 -> ber_element true (Some 16) true w) /\ (forall x, v = VOther x -> ber_other x -> an_type a <> Some 16) /\
       get_any w = Some (a, []) /\
       forall r, match get_oid (concat (wo :: ws) ++ r) with
      | None => None
      | Some (o, []) => Some ((o, None), [])
      | Some (o, l) => if is_eoc l then Some ((o, None), l) else match get_any l with Some (a, l) => Some ((o, Some a), l) | None => None end
      end = Some ((c, Some a), r)).
    { intros u v -> FF V. cbn [concat] in FF. rewrite app_nil_r in FF. apply fits_app in FF. destruct FF as [F1 F2]. destruct (value_complete v u V F2) as (a & G & A1 & A2 & A3). exists a. split; [exact A1|]. split; [exact A2|]. split; [exact A3|].
      split; [specialize (G []); rewrite app_nil_r in G; exact G|]. intros r. cbn [concat]. rewrite app_nil_r, <- app_assoc. rewrite (get_oid_complete c) by assumption. destruct (value_eoc v u r V) as [E1 E2].
      destruct (u ++ r) as [|x y] eqn:Y; [destruct u; [congruence|discriminate]|]. rewrite E2, <- Y, G. reflexivity. }
    destruct prm as [p|]; cbn [ber_parameters] in Hp.
    - destruct Hp as [-> E]. exists (Some (ANY (Some 16) p p)). split; [cbn; intros x <-; reflexivity|]. intros FF r _.
      destruct (Val p (VOther p) eq_refl FF) as (a & _ & _ & _ & G & R); [split; [reflexivity|left; exact E]|]. cbn [concat] in FF. rewrite app_nil_r in FF. apply fits_app in FF.
      pose proof (any_structure 16 p [] (or_introl eq_refl) E (proj2 FF)) as G'. rewrite app_nil_r, G in G'. injection G' as ->. apply R.
    - destruct Hp as [-> |(u & v & -> & V & NS)].
      + exists None. split; [intros x <-; reflexivity|]. intros FF r Hr. cbn [concat] in *. rewrite app_nil_r in *. rewrite (get_oid_complete c) by assumption. destruct Hr as [-> |Hr]; [reflexivity|]. rewrite Hr. destruct r; [discriminate|reflexivity].
      + destruct (N.ltb_spec (N.of_nat (length (concat [wo; u]))) (2 ^ 63)) as [FF|FF]; [|exists None; split; [intros x <-; reflexivity|intros Q; unfold fits in Q; lia]].
        destruct (Val u v eq_refl FF V) as (a & A1 & A2 & A3 & G & R). exists (Some a). split; [|intros _ r _; apply R]. intros x <-. destruct (an_type a) as [n|] eqn:T; [|reflexivity].
        destruct (N.eq_dec n 16) as [-> |NE]; [|destruct n as [|[?|[?|[?|[?|[?|?|]|]|]|]|]]; try reflexivity; congruence]. exfalso.
        destruct v as [s|s|x].
        * unfold any_val in A1. rewrite T in A1. discriminate.
        * unfold any_val in A1. rewrite T in A1. discriminate.
        * apply (A3 x eq_refl); [apply NS; reflexivity|reflexivity]. }
  destruct X as (v & E & X). exists (c, v). split; [apply (get_seq_complete _ _ _ (c, v) t S F X)|]. split; [|apply (oid_numbers_says _ _ Oc)].
  unfold algor_of. cbn [fst snd]. rewrite (names_complete c o nid Oc HN). f_equal. apply E. reflexivity.
Qed.
Lemma p8_complete i attrs w t : ber_p8 true i attrs w -> fits w -> get_p8 (w ++ t) = Some ((i, attrs), t).
Proof.
  intros (version & wv & o & wa & wk & l & wl & ws & Hv & Hn & Ha & Hk & -> & Hl & Hw & S) F. unfold get_p8. apply (get_seq_complete _ _ _ (i, map Some l) t S F). clear F. intros F r Hr. fit. cbn [concat]. rewrite <- !app_assoc.
  rewrite (get_int_complete version) by assumption. destruct (algor_complete _ _ _ _ (wk ++ concat ws ++ r) Hn Ha) as (a & -> & A & _); [assumption|]. rewrite (get_octets_complete (ki_key i)) by assumption.
  rewrite A. destruct i as [[nid prm] k]. cbn [ki_alg al_nid al_params ki_key] in *. destruct Hw as [[-> ->]|(v & V & ->)].
  - cbn [concat app map]. destruct Hr as [-> |Hr]; [reflexivity|]. rewrite Hr. destruct r; [discriminate|reflexivity].
  - cbn [concat] in *. rewrite app_nil_r in *.
    destruct (zero_complete get_attribute l wl v r) as (Z1 & Z2 & Z3); [|exact V|assumption|].
    + intros FF. apply (fits_concat _ _ _ Hl) in FF. clear - FF. induction FF as [|x w l ws [H F] _ IH]; constructor; [|exact IH].
      assert (E : forall r, w <> [] /\ is_eoc (w ++ r) = false) by (intros r; destruct H as (o & c & wo & vs & ws' & _ & _ & _ & _ & _ & S); apply (constructed_eoc _ _ _ r S); discriminate).
      split; [apply (E [])|]. intros r. split; [apply E|apply (attribute_complete x w r H F)].
    + destruct (v ++ r) as [|x y] eqn:Y; [congruence|]. rewrite Z2. rewrite Z1. reflexivity.
Qed.
Lemma fits_31 (w : list N) : N.of_nat (length w) < 2 ^ 31 -> fits w.
Proof. intros H. unfold fits. eapply N.lt_trans; [exact H|reflexivity]. Qed.
Lemma d2i_p8_complete i attrs w t : ber_p8 true i attrs w -> N.of_nat (length w) < 2 ^ 31 -> d2i_p8 (w ++ t) = Some (i, attrs).
Proof. intros H F. unfold d2i_p8. rewrite (p8_complete i attrs w t H) by (apply fits_31, F). reflexivity. Qed.
Lemma d2i_pub_complete i w t : ber_pub true i w -> N.of_nat (length w) < 2 ^ 31 -> d2i_pub (w ++ t) = Some i.
Proof.
  intros (o & wa & wk & Hn & Ha & Hk & S) L. apply fits_31 in L. unfold d2i_pub, get_pub. erewrite (get_seq_complete _ _ _ i t S L); [reflexivity|]. clear L. intros F r _. fit. cbn [concat]. rewrite app_nil_r, <- !app_assoc.
  destruct (algor_complete _ _ _ _ (wk ++ r) Hn Ha) as (a & -> & A & _); [assumption|]. rewrite (get_bits_complete (ki_key i)) by assumption. rewrite A. destruct i as [[nid prm] k]. reflexivity.
Qed.
Lemma d2i_sig_complete o s w t : ber_sig true o s w -> N.of_nat (length w) < 2 ^ 31 -> d2i_sig (w ++ t) = Some (o, s).
Proof.
  intros (prm & wa & ws & Ha & Hs & S) L. apply fits_31 in L. unfold d2i_sig, get_sig. erewrite (get_seq_complete _ _ _ (o, s) t S L); [reflexivity|]. clear L. intros F r _. fit. cbn [concat]. rewrite app_nil_r, <- !app_assoc.
  assert (Hn : exists nid, names_type o nid) by (destruct Ha as (c & _ & _ & Oc & _); exists (key_obj2nid c); apply names_sound, Oc). destruct Hn as (nid & Hn).
  destruct (algor_complete _ _ _ _ (ws ++ r) Hn Ha) as (a & -> & _ & A); [assumption|]. rewrite (get_octets_complete s) by assumption. rewrite A. reflexivity.
Qed.
(** What is read is what the bytes encode. *)
Lemma header_class l h t : get_header l = Some (h, t) -> h_class h = hd 0 l / 64.
Proof.
  intros E. destruct l as [|b l]; [discriminate|]. unfold get_header in E. destruct (if b mod 32 =? 31 then get_long_tag 0 l else Some (b mod 32, l)) as [[tag l1]|]; [|discriminate].
  destruct (get_len l1) as [[n l2]|]; [|discriminate]. cbn [h_cst] in E. destruct n as [n|]; [destruct (N.of_nat (length l2) <? n)|destruct (N.testbit b 5)]; try discriminate; injection E as <- <-; reflexivity.
Qed.
Lemma header_zero l h t : bytes l -> get_header l = Some (h, t) -> h_tag h = 0 -> h_class h = 2 ->
  exists id u, l = id ++ u ++ t /\ zero_tag false id /\
    match h_len h with None => u = [128] /\ h_cst h = true | Some n => n <= N.of_nat (length t) /\ forall k, N.of_nat k = n -> definite false k u end.
Proof.
  intros B E. destruct l as [|b l]; [discriminate|]. unfold get_header in E. inversion B as [|? ? B1 B2]. subst. unfold is_byte in B1.
  destruct (if b mod 32 =? 31 then get_long_tag 0 l else Some (b mod 32, l)) as [[tag l1]|] eqn:E1; [|discriminate].
  destruct (get_len l1) as [[n l2]|] eqn:E2; [|discriminate]. cbn [h_cst] in E.
  assert (X : exists more, l = more ++ l1 /\ (b mod 32 = tag /\ more = [] \/ b mod 32 = 31 /\ long_tag tag more)).
  { destruct (N.eqb_spec (b mod 32) 31) as [Q|Q].
    - destruct (long_tag_sound _ _ _ _ B2 E1 ltac:(reflexivity)) as (i & e & -> & F & He & Hn & R). exists (i ++ [e]). split; [reflexivity|]. right. split; [exact Q|].
      exists i, e. split; [reflexivity|]. split; [exact F|]. split; [exact He|]. split; [symmetry; exact Hn|exact R].
    - injection E1 as <- <-. exists []. split; [reflexivity|]. left. split; reflexivity. }
  destruct X as (more & -> & X). apply bytes_app in B2. destruct B2 as [_ B2]. destruct (get_len_sound _ _ _ B2 E2) as (u & -> & U).
  assert (R : h = HEADER tag (b / 64) (N.testbit b 5) n /\ t = l2 /\ match n with None => N.testbit b 5 = true | Some n => n <= N.of_nat (length l2) end).
  { destruct n as [n|].
    - destruct (N.ltb_spec (N.of_nat (length l2)) n); [discriminate|]. injection E as <- <-. repeat split. assumption.
    - destruct (N.testbit b 5) eqn:T; [|discriminate]. injection E as <- <-. repeat split. }
  destruct R as (-> & -> & R). clear E. cbn [h_cst h_len h_tag h_class]. intros -> HC.
  exists (b :: more), u. split; [cbn [app]; reflexivity|]. split.
  { cbn [zero_tag]. exists b, more. split; [reflexivity|]. split; [|exact X]. pose proof (N.div_mod b 64 ltac:(lia)). pose proof (N.mod_lt b 64 ltac:(lia)). lia. }
  destruct n as [n|]; [split; [exact R|exact U]|split; [exact U|exact R]].
Qed.
Lemma string_element : (forall d tag v w, ber_string false d tag v w -> exists cst, ber_element false tag cst w) /\ (forall d v w, ber_parts false d v w -> ber_elements false w).
Proof.
  apply (ber_both false (fun d tag v w => exists cst, ber_element false tag cst w) (fun d v w => ber_elements false w)).
  - intros d tag id l c I1 D. exists false. constructor; assumption.
  - intros d tag c v w _ IH (id & I1 & [(l & D & ->)| ->]); exists true; constructor; assumption.
  - intros. constructor.
  - intros d v w v' w' _ [cst IH] NE _ IH'. apply (els_cons _ cst); assumption.
Qed.
Lemma content_sound tg h id w u c r : bytes u -> identifier false tg (h_cst h) id ->
  match h_len h with None => w = [128] /\ h_cst h = true | Some n => n <= N.of_nat (length u) /\ forall k, N.of_nat k = n -> definite false k w end ->
  get_content h u = Some (c, r) -> exists v, id ++ w ++ u = v ++ r /\ ber_string false 6 tg c v /\ ber_element false tg (h_cst h) v.
Proof.
  intros B I1 Hl E. unfold get_content in E. destruct (h_cst h) eqn:Ec.
  - destruct (h_len h) as [n|].
    + destruct Hl as [Hn Hd]. destruct (take_split n u Hn) as (a & r' & -> & Ea & Er & La). rewrite Ea, Er in E.
      destruct (collect (S (length a)) max_string_nest false a) as [[s' x]|] eqn:Ek; [|discriminate]. injection E as <- <-. rewrite bytes_app in B.
      destruct (collect_sound _ _ _ _ _ _ (proj1 B) Ek) as (c & P & -> & _).
      exists (id ++ w ++ c). split; [rewrite <- !app_assoc; reflexivity|]. split; [apply (ber_cons _ _ _ c); [exact P|]; exists id; split; [exact I1|]; left; exists w; split; [apply Hd, La|reflexivity]|]. constructor; [exact I1|apply Hd, La].
    + destruct Hl as [-> _]. destruct (collect_sound _ _ _ _ _ _ B E) as (x & P & ->).
      exists (id ++ [128] ++ x ++ [0; 0]). split; [rewrite <- !app_assoc; reflexivity|]. split; [apply (ber_cons _ _ _ x); [exact P|]; exists id; split; [exact I1|]; right; reflexivity|]. constructor; [exact I1|exact (proj2 string_element _ _ _ P)].
  - destruct (h_len h) as [n|]; [|discriminate]. destruct Hl as [Hn Hd]. destruct (take_split n u Hn) as (a & r' & -> & Ea & Er & La). rewrite Ea, Er in E. injection E as <- <-.
    exists (id ++ w ++ a). split; [rewrite <- !app_assoc; reflexivity|]. split; [apply ber_prim; [exact I1|apply Hd, La]|]. constructor; [exact I1|apply Hd, La].
Qed.
Lemma find_end_sound f : forall k l t, bytes l -> find_end f k l = Some t ->
  exists cs, length cs = S k /\ Forall (ber_elements false) cs /\ l = concat (map (fun c => c ++ [0; 0]) cs) ++ t.
Proof.
  induction f as [|f IH]; intros k l t B E; [discriminate|]. cbn [find_end] in E. destruct l as [|b0 l0]; [discriminate|]. set (l := b0 :: l0) in *. clearbody l. clear b0 l0. destruct (is_eoc l) eqn:Eo.
  - destruct (is_eoc_true _ Eo) as (u & ->). cbn [skipn] in E. destruct k as [|k].
    + injection E as <-. exists [[]]. split; [reflexivity|]. split; [repeat constructor|reflexivity].
    + change (0 :: 0 :: u) with ([0; 0] ++ u) in B. apply bytes_app in B. destruct (IH _ _ _ (proj2 B) E) as (cs & L & F & ->). exists ([] :: cs). split; [cbn; lia|]. split; [constructor; [constructor|exact F]|reflexivity].
  - destruct (get_header l) as [[h u]|] eqn:Eh; [|discriminate]. destruct (get_header_sound _ _ _ B Eh) as (id & w & -> & I1 & _ & Hl). rewrite !bytes_app in B.
    destruct (h_len h) as [n|].
    + destruct Hl as [Hn Hd]. destruct (take_split n u Hn) as (a & r & -> & Ea & Er & La). rewrite Er in E. rewrite bytes_app in B. destruct (IH _ _ _ (proj2 (proj2 (proj2 B))) E) as (cs & L & F & ->).
      destruct cs as [|c cs]; [discriminate|]. inversion F as [|? ? F1 F2]. subst. exists (((id ++ w ++ a) ++ c) :: cs). split; [exact L|]. split; [|cbn [map concat]; rewrite <- !app_assoc; reflexivity].
      constructor; [|exact F2]. apply (els_cons _ (h_cst h)); [apply el_known; [exact I1|apply Hd; reflexivity]| |exact F1]. intros x X. rewrite !app_assoc in Eo. rewrite !app_assoc in X. rewrite X in Eo. discriminate.
    + destruct Hl as [-> Hc]. rewrite Hc in I1. destruct (IH _ _ _ (proj2 (proj2 B)) E) as (cs & L & F & ->). destruct cs as [|c [|c' cs]]; try discriminate. inversion F as [|? ? F1 F2]. inversion F2 as [|? ? F3 F4]. subst.
      exists ((((id ++ [128] ++ c ++ [0; 0]) ++ c')) :: cs). split; [cbn in *; lia|]. split; [|cbn [map concat]; rewrite <- !app_assoc; reflexivity].
      constructor; [|exact F4]. apply (els_cons _ true); [constructor; assumption| |exact F3]. intros x X. apply (f_equal (fun y => y ++ (c' ++ [0; 0]) ++ concat (map (fun c => c ++ [0; 0]) cs) ++ t)) in X.
      cbn [map concat] in Eo. rewrite <- !app_assoc in Eo, X. rewrite X in Eo. discriminate.
Qed.
Lemma bits_sound c : bytes c -> c2i_ok (Some 3) c = true -> exists u s, c = u :: s /\ bits_say u s (bits c).
Proof.
  intros B H. destruct c as [|u s]; [discriminate|]. exists u, s. split; [reflexivity|]. cbn in H. apply N.leb_le in H. inversion B as [|? ? B1 B2]. subst. split; [exact H|]. split; [exact B2|].
  destruct s as [|b t _] using rev_ind; [left; split; reflexivity|]. right. exists t, b. split; [reflexivity|]. cbn [bits]. rewrite rev_app_distr. cbn [rev app]. rewrite rev_involutive. apply bytes_app in B2. destruct B2 as [_ B2]. inversion B2; subst.
  rewrite clear_bits by assumption. reflexivity.
Qed.
Lemma string_bytes : (forall d tag v w, ber_string false d tag v w -> bytes w -> bytes v) /\ (forall d v w, ber_parts false d v w -> bytes w -> bytes v).
Proof.
  apply (ber_both false (fun d tag v w => bytes w -> bytes v) (fun d v w => bytes w -> bytes v)).
  - intros d tag id l c _ _ B. rewrite !bytes_app in B. tauto.
  - intros d tag c v w _ IH (id & _ & [(l & _ & ->)| ->]) B; apply IH; rewrite !bytes_app in B; tauto.
  - intros d _. constructor.
  - intros d v w v' w' _ IH _ _ IH' B. rewrite bytes_app in *. tauto.
Qed.
Lemma get_bits_sound l v t : bytes l -> get_bits l = Some (v, t) -> exists w, l = w ++ t /\ ber_bits false v w.
Proof.
  intros B E. unfold get_bits in E. destruct (get_header l) as [[h u]|] eqn:Eh; [|discriminate]. destruct (get_header_sound _ _ _ B Eh) as (id & w & -> & _ & I1 & Hl).
  destruct (is_tag 3 h) eqn:T; [|discriminate]. specialize (I1 _ T). cbn [negb] in E. destruct (get_content h u) as [[c r]|] eqn:Ec; [|discriminate]. destruct (c2i_ok (Some 3) c) eqn:C; [|discriminate]. injection E as <- <-.
  assert (Bu : bytes u) by (rewrite !bytes_app in B; tauto). destruct (content_sound _ _ _ _ _ _ _ Bu I1 Hl Ec) as (x & E & S & _). rewrite E in *. exists x. split; [reflexivity|].
  apply bytes_app in B. destruct (bits_sound c) as (y & s & -> & Q); [apply (proj1 string_bytes _ _ _ _ S), B|exact C|]. exists y, s. split; [exact Q|exact S].
Qed.
Lemma any_sound l a t : bytes l -> get_any l = Some (a, t) -> exists w, l = w ++ t /\ ber_value false (any_val a) w /\
  (an_type a = Some 16 -> an_data a = w /\ ber_element false (Some 16) true w) /\ (an_type a <> Some 16 -> not_sequence w).
Proof.
  intros B E. unfold get_any in E. destruct (get_header l) as [[h u]|] eqn:Eh; [|discriminate]. pose proof (header_class _ _ _ Eh) as HC. destruct (get_header_sound _ _ _ B Eh) as (id & w & -> & I0 & I1 & Hl).
  assert (Bu : bytes u) by (rewrite !bytes_app in B; tauto).
  assert (Whole : forall tg r, identifier false tg (h_cst h) id -> match h_len h with Some n => Some (skipn (N.to_nat n) u) | None => find_end (S (length u)) 0 u end = Some r ->
    exists x, id ++ w ++ u = x ++ r /\ ber_element false tg (h_cst h) x).
  { intros tg r I2 X. destruct (h_len h) as [n|].
    - destruct Hl as [Hn Hd]. destruct (take_split n u Hn) as (c & r' & -> & Ea & Er & La). rewrite Er in X. injection X as <-. exists (id ++ w ++ c). split; [rewrite <- !app_assoc; reflexivity|]. apply el_known; [exact I2|apply Hd, La].
    - destruct Hl as [-> Hc]. rewrite Hc in *. destruct (find_end_sound _ _ _ _ Bu X) as (cs & L & F & ->). destruct cs as [|c [|? ?]]; try discriminate. inversion F; subst. cbn [map concat]. rewrite app_nil_r.
      exists (id ++ [128] ++ c ++ [0; 0]). split; [rewrite <- !app_assoc; reflexivity|]. constructor; assumption. }
  destruct (N.eqb_spec (h_class h) 0) as [C0|C0].
  - assert (IT : is_tag (h_tag h) h = true) by (unfold is_tag; rewrite C0, N.eqb_refl; reflexivity). specialize (I1 _ IT). set (n := h_tag h) in *. clearbody n. destruct (kept (Some n)) eqn:K.
    + destruct (h_cst h) eqn:Ec; [|discriminate]. destruct (match h_len h with Some n => Some (skipn (N.to_nat n) u) | None => find_end (S (length u)) 0 u end) as [r|] eqn:X; [|discriminate].
      destruct (Whole _ _ I1 eq_refl) as (x & Ex & Y). rewrite Ex in *. injection E as <- <-. rewrite prefix_enc in *. exists x. split; [reflexivity|]. cbn [an_type an_data].
      split; [|split; [intros [= ->]; split; [reflexivity|exact Y]|intros NE; right; exists n, true; split; [congruence|exact Y]]].
      unfold any_val. cbn [an_type an_enc]. assert (V : VOther x = match Some n with Some 4 => VOctet x | Some 3 => VBit (bits x) | _ => VOther x end) by (destruct n as [|[[?|?|]|[?|[?|?|]|]|]]; try reflexivity; discriminate K).
      cbn [an_data]. rewrite <- V. split; [reflexivity|]. right. exists n, true. split; [exact Y|]. split; [|reflexivity]. intros Hn. exfalso. cbn in Hn. intuition (subst; discriminate K).
    + destruct (h_cst h && never_cst n) eqn:NC; [discriminate|]. destruct (get_content h u) as [[c r]|] eqn:Ec; [|discriminate]. destruct (c2i_ok (Some n) c) eqn:C; [|discriminate].
      destruct (content_sound _ _ _ _ _ _ _ Bu I1 Hl Ec) as (x & Ex & S & SE). rewrite Ex in *. injection E as <- <-. rewrite prefix_enc. exists x. split; [reflexivity|]. cbn [an_type an_data].
      split; [|split; [intros [= ->]; discriminate K|intros _; right; exists n, (h_cst h); split; [intros ->; discriminate K|exact SE]]].
      unfold any_val. cbn [an_type an_data an_enc]. assert (V : ber_value false (VOther x) x).
      { split; [reflexivity|]. right. exists n, (h_cst h). split; [exact SE|]. split; [|intros [->| ->]; discriminate K]. intros Hn. destruct (h_cst h); [|reflexivity]. exfalso. cbn in Hn. intuition (subst; discriminate NC). }
      destruct (N.eq_dec n 4) as [-> |N4]; [exact S|]. destruct (N.eq_dec n 3) as [-> |N3].
      * apply bytes_app in B. destruct (bits_sound c) as (y & s & -> & Q); [apply (proj1 string_bytes _ _ _ _ S), B|exact C|]. exists y, s. split; [exact Q|exact S].
      * destruct n as [|[[?|?|]|[?|[?|?|]|]|]]; try exact V; congruence.
  - destruct (match h_len h with Some n => Some (skipn (N.to_nat n) u) | None => find_end (S (length u)) 0 u end) as [r|] eqn:X; [|discriminate].
    destruct (Whole _ _ I0 eq_refl) as (x & Ex & Y). rewrite Ex in *. injection E as <- <-. rewrite prefix_enc. exists x. split; [reflexivity|]. cbn [an_type an_data any_val an_enc].
    assert (H64 : 64 <= hd 0 x); [|split; [split; [reflexivity|left; split; [exact H64|eexists; exact Y]]|]; split; [discriminate|intros _; left; exact H64]]. pose proof (element_length _ _ _ _ Y) as L. destruct x as [|b x]; [cbn in L; lia|]. cbn [app hd] in *.
    pose proof (N.div_mod b 64 ltac:(lia)). pose proof (N.mod_lt b 64 ltac:(lia)). lia.
Qed.
Lemma items_sound {A} (item : list N -> option (A * list N)) (P : A -> list N -> Prop) : (forall l x t, bytes l -> item l = Some (x, t) -> exists w, l = w ++ t /\ P x w) ->
  forall f inf l xs t, bytes l -> get_items item f inf l = Some (xs, t) -> exists ws, Forall2 P xs ws /\ if inf then l = concat ws ++ [0; 0] ++ t else l = concat ws /\ t = [].
Proof.
  intros H. induction f as [|f IH]; intros inf l xs t B E; [discriminate|]. cbn [get_items] in E. destruct l as [|b0 l0].
  { destruct inf; [discriminate|]. injection E as <- <-. exists []. split; [constructor|]. split; reflexivity. }
  set (l := b0 :: l0) in *. clearbody l. clear b0 l0. destruct (is_eoc l) eqn:Eo.
  { destruct inf; [|discriminate]. injection E as <- <-. destruct (is_eoc_true _ Eo) as (u & ->). exists []. split; [constructor|reflexivity]. }
  destruct (item l) as [[x u]|] eqn:Ei; [|discriminate]. destruct (H _ _ _ B Ei) as (w & -> & Q). destruct (get_items item f inf u) as [[ys r]|] eqn:G; [|discriminate]. injection E as <- <-.
  apply bytes_app in B. destruct (IH _ _ _ _ (proj2 B) G) as (ws & F & R). exists (w :: ws). split; [constructor; assumption|]. cbn [concat]. destruct inf; [rewrite R, <- app_assoc; reflexivity|]. destruct R as [-> ->]. split; reflexivity.
Qed.
Lemma set_sound {A} (item : list N -> option (A * list N)) (P : A -> list N -> Prop) : (forall l x t, bytes l -> item l = Some (x, t) -> exists w, l = w ++ t /\ P x w) ->
  forall l xs t, bytes l -> get_set_of 0 17 item l = Some (xs, t) -> exists ws w, l = w ++ t /\ Forall2 P xs ws /\ ber_set false ws w.
Proof.
  intros H l xs t B E. unfold get_set_of in E. destruct (get_header l) as [[h u]|] eqn:Eh; [|discriminate]. destruct (get_header_sound _ _ _ B Eh) as (id & w & -> & _ & I1 & Hl).
  specialize (I1 17). unfold is_tag in I1. destruct ((h_tag h =? 17) && (h_class h =? 0)); [|discriminate]. specialize (I1 eq_refl). rewrite !bytes_app in B. destruct (h_len h) as [n|].
  - destruct Hl as [Hn Hd]. destruct (take_split n u Hn) as (a & r & -> & Ea & Er & La). rewrite Ea, Er in E. rewrite bytes_app in B. destruct (get_items item (S (length a)) false a) as [[ys x]|] eqn:G; [|discriminate]. injection E as <- <-.
    destruct (items_sound item P H _ _ _ _ _ (proj1 (proj2 (proj2 B))) G) as (ws & F & -> & _). exists ws, (id ++ w ++ concat ws). split; [rewrite <- !app_assoc; reflexivity|]. split; [exact F|]. cbn [ber_set]. destruct (h_cst h).
    + left. exists id. split; [exact I1|]. left. exists w. split; [apply Hd, La|reflexivity].
    + right. exists id, w. split; [exact I1|]. split; [apply Hd, La|reflexivity].
  - destruct Hl as [-> Hc]. rewrite Hc in I1. destruct (items_sound item P H _ _ _ _ _ (proj2 (proj2 B)) E) as (ws & F & ->). exists ws, (id ++ [128] ++ concat ws ++ [0; 0]). split; [rewrite <- !app_assoc; reflexivity|]. split; [exact F|].
    left. exists id. split; [exact I1|]. right. reflexivity.
Qed.
Lemma zero_sound {A} (item : list N -> option (A * list N)) (P : A -> list N -> Prop) : (forall l x t, bytes l -> item l = Some (x, t) -> exists w, l = w ++ t /\ P x w) ->
  forall l xs t, bytes l -> get_set_of 2 0 item l = Some (xs, t) -> exists ws w, l = w ++ t /\ Forall2 P xs ws /\ ber_zero false ws w.
Proof.
  intros H l xs t B E. unfold get_set_of in E. destruct (get_header l) as [[h u]|] eqn:Eh; [|discriminate]. destruct (N.eqb_spec (h_tag h) 0) as [T|T]; [|discriminate]. destruct (N.eqb_spec (h_class h) 2) as [C|C]; [|discriminate]. cbn [andb] in E.
  destruct (header_zero _ _ _ B Eh T C) as (id & w & -> & I1 & Hl). rewrite !bytes_app in B. destruct (h_len h) as [n|].
  - destruct Hl as [Hn Hd]. destruct (take_split n u Hn) as (a & r & -> & Ea & Er & La). rewrite Ea, Er in E. rewrite bytes_app in B. destruct (get_items item (S (length a)) false a) as [[ys x]|] eqn:G; [|discriminate]. injection E as <- <-.
    destruct (items_sound item P H _ _ _ _ _ (proj1 (proj2 (proj2 B))) G) as (ws & F & -> & _). exists ws, (id ++ w ++ concat ws). split; [rewrite <- !app_assoc; reflexivity|]. split; [exact F|].
    exists id. split; [exact I1|]. left. exists w. split; [apply Hd, La|reflexivity].
  - destruct Hl as [-> Hc]. destruct (items_sound item P H _ _ _ _ _ (proj2 (proj2 B)) E) as (ws & F & ->). exists ws, (id ++ [128] ++ concat ws ++ [0; 0]). split; [rewrite <- !app_assoc; reflexivity|]. split; [exact F|].
    exists id. split; [exact I1|]. right. reflexivity.
Qed.
Lemma oid_bytes l c t : bytes l -> get_oid l = Some (c, t) -> exists w, l = w ++ t /\ ber_oid false c w /\ oid_says c (oid_numbers c).
Proof.
  intros B E. destruct (get_oid_sound _ _ _ B E) as (w & -> & O). exists w. split; [reflexivity|]. split; [exact O|]. apply oid_says_numbers; [|exact (proj1 O)]. apply bytes_app in B. destruct B as [B _].
  destruct O as (_ & id & u & _ & _ & ->). rewrite !bytes_app in B. tauto.
Qed.
Lemma attribute_sound l a t : bytes l -> get_attribute l = Some (a, t) -> exists w, l = w ++ t /\ ber_attribute false a w.
Proof.
  intros B E. unfold get_attribute in E.
  match type of E with get_seq ?FF _ = _ => destruct (get_seq_sound FF (fun a parts => exists o c wo vs ws, at_obj a = Some o /\ oid_says c o /\ ber_oid false c wo /\ Forall2 (ber_value false) (at_vals a) vs /\ ber_set false vs ws /\ parts = [wo; ws]))
    with (2 := B) (3 := E) as (parts & w & (o & c & wo & vs & ws & H1 & H2 & H3 & H4 & H5 & ->) & S & ->) end.
  - clear. intros l a t B E. destruct (get_oid l) as [[o l1]|] eqn:E1; [|discriminate]. destruct (oid_bytes _ _ _ B E1) as (wo & -> & O1 & O2). apply bytes_app in B. destruct B as [_ B].
    destruct (get_set_of 0 17 get_any l1) as [[vs l2]|] eqn:E2; [|discriminate]. injection E as <- <-.
    destruct (set_sound get_any (fun a w => ber_value false (any_val a) w)) with (2 := B) (3 := E2) as (ws & w & -> & F & S).
    { intros l x t Bl El. destruct (any_sound _ _ _ Bl El) as (w & -> & V & _). exists w. split; [reflexivity|exact V]. }
    exists [wo; w]. split; [|cbn [concat]; rewrite app_nil_r, <- app_assoc; reflexivity]. exists (oid_numbers o), o, wo, ws, w. split; [reflexivity|]. split; [exact O2|]. split; [exact O1|]. split; [|split; [exact S|reflexivity]].
    cbn [at_vals]. clear - F. induction F; [constructor|]. cbn [map]. constructor; assumption.
  - exists w. split; [reflexivity|]. exists o, c, wo, vs, ws. repeat (split; [assumption|]). exact S.
Qed.
Lemma algor_sound l a t : bytes l -> get_algor l = Some (a, t) -> exists w o, l = w ++ t /\ o = oid_numbers (fst a) /\ names_type o (al_nid (algor_of a)) /\ ber_algor false o (al_params (algor_of a)) w.
Proof.
  intros B E. unfold get_algor in E.
  match type of E with get_seq ?FF _ = _ => destruct (get_seq_sound FF (fun a parts => exists wo ws, oid_says (fst a) (oid_numbers (fst a)) /\ ber_oid false (fst a) wo /\ ber_parameters false (al_params (algor_of a)) ws /\ parts = wo :: ws))
    with (2 := B) (3 := E) as (parts & w & (wo & ws & H1 & H2 & H3 & ->) & S & ->) end.
  - clear. intros l a t B E. destruct (get_oid l) as [[o l1]|] eqn:E1; [|discriminate]. destruct (oid_bytes _ _ _ B E1) as (wo & -> & O1 & O2). apply bytes_app in B. destruct B as [_ B].
    destruct l1 as [|b0 l0]; [injection E as <- <-; exists [wo]; split; [exists wo, []; split; [exact O2|]; split; [exact O1|]; split; [left; reflexivity|reflexivity]|cbn [concat]; rewrite !app_nil_r; reflexivity]|].
    set (l1 := b0 :: l0) in *. clearbody l1. destruct (is_eoc l1).
    + injection E as <- <-. exists [wo]. split; [exists wo, []; split; [exact O2|]; split; [exact O1|]; split; [left; reflexivity|reflexivity]|cbn [concat]; rewrite !app_nil_r; reflexivity].
    + destruct (get_any l1) as [[v l2]|] eqn:E2; [|discriminate]. destruct (any_sound _ _ _ B E2) as (w & -> & V & T1 & T2). injection E as <- <-.
      exists [wo; w]. split; [|cbn [concat]; rewrite app_nil_r, <- app_assoc; reflexivity]. exists wo, [w]. split; [exact O2|]. split; [exact O1|]. split; [|reflexivity]. cbn [algor_of snd al_params].
      destruct (an_type v) as [n|] eqn:T; [|right; exists w, (any_val v); split; [reflexivity|]; split; [exact V|apply T2; discriminate]].
      destruct (N.eq_dec n 16) as [-> |NE]; [destruct (T1 eq_refl) as [-> T3]; split; [reflexivity|exact T3]|].
      assert (X : match n with 16 => Some (an_data v) | _ => None end = None) by (destruct n as [|[?|[?|[?|[?|[?|?|]|]|]|]|]]; try reflexivity; congruence). rewrite X.
      right. exists w, (any_val v). split; [reflexivity|]. split; [exact V|]. apply T2. congruence.
  - exists w, (oid_numbers (fst a)). split; [reflexivity|]. split; [reflexivity|]. split; [apply names_sound, H1|]. exists (fst a), wo, ws. repeat (split; [assumption|]). exact S.
Qed.
Lemma d2i_p8_sound l i attrs : bytes l -> d2i_p8 l = Some (i, attrs) -> exists w t, l = w ++ t /\ ber_p8 false i attrs w.
Proof.
  intros B E. unfold d2i_p8 in E. destruct (get_p8 l) as [[q t]|] eqn:E1; [|discriminate]. injection E as ->. unfold get_p8 in E1.
  match type of E1 with get_seq ?FF _ = _ => destruct (get_seq_sound FF (fun x parts => exists version wv o wa wk l wl ws, ber_integer false version wv /\ names_type o (al_nid (ki_alg (fst x))) /\ ber_algor false o (al_params (ki_alg (fst x))) wa /\
    ber_octets false (ki_key (fst x)) wk /\ snd x = map Some l /\ Forall2 (ber_attribute false) l wl /\ (l = [] /\ ws = [] \/ exists v, ber_zero false wl v /\ ws = [v]) /\ parts = wv :: wa :: wk :: ws))
    with (2 := B) (3 := E1) as (parts & w & (version & wv & o & wa & wk & al & wl & ws & H1 & H2 & H3 & H4 & H5 & H6 & H7 & ->) & S & ->) end.
  - clear. intros l x t B E. destruct (get_int l) as [[v l1]|] eqn:E1; [|discriminate]. destruct (get_int_sound _ _ _ B E1) as (wv & -> & V). apply bytes_app in B. destruct B as [_ B].
    destruct (get_algor l1) as [[a l2]|] eqn:E2; [|discriminate]. destruct (algor_sound _ _ _ B E2) as (wa & o & -> & _ & NT & A). apply bytes_app in B. destruct B as [_ B].
    destruct (get_octets l2) as [[k l3]|] eqn:E3; [|discriminate]. destruct (get_octets_sound _ _ _ B E3) as (wk & -> & K). apply bytes_app in B. destruct B as [_ B].
    assert (No : forall r, exists parts, (exists version wv o wa wk l wl ws, ber_integer false version wv /\ names_type o (al_nid (algor_of a)) /\ ber_algor false o (al_params (algor_of a)) wa /\
      ber_octets false k wk /\ @nil (option attribute) = map Some l /\ Forall2 (ber_attribute false) l wl /\ (l = [] /\ ws = [] \/ exists v, ber_zero false wl v /\ ws = [v]) /\ parts = wv :: wa :: wk :: ws) /\ wv ++ wa ++ wk ++ r = concat parts ++ r).
    { intros r. exists [wv; wa; wk]. split; [|cbn [concat]; rewrite app_nil_r, <- !app_assoc; reflexivity]. exists v, wv, o, wa, wk, [], [], []. split; [exact V|]. split; [exact NT|]. split; [exact A|]. split; [exact K|]. split; [reflexivity|]. split; [constructor|]. split; [left; split; reflexivity|reflexivity]. }
    destruct l3 as [|b0 l0]; [injection E as <- <-; apply No|]. set (l3 := b0 :: l0) in *. clearbody l3. destruct (is_eoc l3); [injection E as <- <-; apply No|]. clear No.
    destruct (get_set_of 2 0 get_attribute l3) as [[xs l4]|] eqn:E4; [|discriminate]. injection E as <- <-. destruct (zero_sound get_attribute (ber_attribute false) attribute_sound _ _ _ B E4) as (wl & w & -> & F & Z).
    exists [wv; wa; wk; w]. split; [|cbn [concat]; rewrite app_nil_r, <- !app_assoc; reflexivity]. exists v, wv, o, wa, wk, xs, wl, [w]. cbn [fst snd ki_alg ki_key]. repeat (split; [first [assumption|reflexivity]|]).
    split; [right; exists w; split; [exact Z|reflexivity]|reflexivity].
  - exists w, t. split; [reflexivity|]. cbn [fst snd] in *. exists version, wv, o, wa, wk, al, wl, ws. repeat (split; [assumption|]). exact S.
Qed.
Lemma d2i_pub_sound l i : bytes l -> d2i_pub l = Some i -> exists w t, l = w ++ t /\ ber_pub false i w.
Proof.
  intros B E. unfold d2i_pub in E. destruct (get_pub l) as [[q t]|] eqn:E1; [|discriminate]. injection E as ->. unfold get_pub in E1.
  match type of E1 with get_seq ?FF _ = _ => destruct (get_seq_sound FF (fun i parts => exists o wa wk, names_type o (al_nid (ki_alg i)) /\ ber_algor false o (al_params (ki_alg i)) wa /\ ber_bits false (ki_key i) wk /\ parts = [wa; wk]))
    with (2 := B) (3 := E1) as (parts & w & (o & wa & wk & H1 & H2 & H3 & ->) & S & ->) end.
  - clear. intros l x t B E. destruct (get_algor l) as [[a l2]|] eqn:E2; [|discriminate]. destruct (algor_sound _ _ _ B E2) as (wa & o & -> & _ & NT & A). apply bytes_app in B. destruct B as [_ B].
    destruct (get_bits l2) as [[k l3]|] eqn:E3; [|discriminate]. destruct (get_bits_sound _ _ _ B E3) as (wk & -> & K). injection E as <- <-.
    exists [wa; wk]. split; [|cbn [concat]; rewrite app_nil_r, <- !app_assoc; reflexivity]. exists o, wa, wk. repeat (split; [assumption|]). reflexivity.
  - exists w, t. split; [reflexivity|]. exists o, wa, wk. repeat (split; [assumption|]). exact S.
Qed.
Lemma d2i_sig_sound l o s : bytes l -> d2i_sig l = Some (o, s) -> exists w t, l = w ++ t /\ ber_sig false o s w.
Proof.
  intros B E. unfold d2i_sig in E. destruct (get_sig l) as [[q t]|] eqn:E1; [|discriminate]. injection E as ->. unfold get_sig in E1.
  match type of E1 with get_seq ?FF _ = _ => destruct (get_seq_sound FF (fun x parts => exists prm wa ws, ber_algor false (fst x) prm wa /\ ber_octets false (snd x) ws /\ parts = [wa; ws]))
    with (2 := B) (3 := E1) as (parts & w & (prm & wa & ws & H1 & H2 & ->) & S & ->) end.
  - clear. intros l x t B E. destruct (get_algor l) as [[a l2]|] eqn:E2; [|discriminate]. destruct (algor_sound _ _ _ B E2) as (wa & o & -> & -> & NT & A). apply bytes_app in B. destruct B as [_ B].
    destruct (get_octets l2) as [[k l3]|] eqn:E3; [|discriminate]. destruct (get_octets_sound _ _ _ B E3) as (wk & -> & K). injection E as <- <-.
    exists [wa; wk]. split; [|cbn [concat]; rewrite app_nil_r, <- !app_assoc; reflexivity]. eexists _, wa, wk. split; [exact A|]. split; [exact K|reflexivity].
  - exists w, t. split; [reflexivity|]. cbn [fst snd] in *. exists prm, wa, ws. repeat (split; [assumption|]). exact S.
Qed.
