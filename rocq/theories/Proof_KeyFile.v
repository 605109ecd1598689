(** What the decoders of IIT key files and curve attributes read. *)
From Coq Require Import ZArith List Lia.
Import ListNotations.
From Verif Require Import Base Lib Model_Utils Model_Asn1 Model_Key6 Model_Iit Model_KeyFile Spec_Asn1 Spec_Ber Spec_KeyFile Proof_Asn1 Proof_Ber.
Open Scope N_scope.

Lemma base128_snoc i l : base128 (i ++ [l]) = 128 * base128 i + l mod 128.
Proof. unfold base128. rewrite fold_left_app. reflexivity. Qed.
Lemma sub_numbers_many i : forall acc t, Forall (fun b => 128 <= b < 256) i -> sub_numbers acc (i ++ t) = sub_numbers (fold_left (fun a b => 128 * a + b mod 128) i acc) t.
Proof.
  induction i as [|b i IH]; intros acc t F; [reflexivity|]. inversion F as [|? ? B F']; subst. cbn [app sub_numbers fold_left].
  destruct (N.ltb_spec b 128); [lia|]. rewrite IH by exact F'. f_equal. f_equal. f_equal. apply (N.mod_unique _ _ 1); lia.
Qed.
Lemma bytes_128 i : bytes i -> Forall (fun b => 128 <= b) i -> Forall (fun b => 128 <= b < 256) i.
Proof. intros B F. induction i; [constructor|]. inversion B; inversion F; subst. constructor; [split; assumption|auto]. Qed.
Lemma sub_numbers_ids ids : Forall subidentifier ids -> bytes (concat ids) -> sub_numbers 0 (concat ids) = map base128 ids.
Proof.
  induction ids as [|s ids IH]; intros F B; [reflexivity|]. inversion F as [|? ? (i & l & -> & Hi & Hl & _) F']; subst. cbn [concat map] in *.
  rewrite !bytes_app in B. destruct B as [[Bi _] B]. rewrite <- app_assoc. rewrite sub_numbers_many by (apply bytes_128; assumption). cbn [app sub_numbers].
  destruct (N.ltb_spec l 128); [|lia]. rewrite IH by assumption. f_equal. rewrite base128_snoc, N.mod_small by exact Hl. reflexivity.
Qed.
Lemma oid_numbers_says c n : oid_says c n -> oid_numbers c = n.
Proof.
  intros (B & ids & x & y & t & F & -> & -> & E & X & Y). unfold oid_numbers. rewrite sub_numbers_ids, E by assumption.
  destruct (N.ltb_spec (40 * x + y) 40); [assert (x = 0) by lia; subst; cbn [app]; f_equal; lia|].
  destruct (N.ltb_spec (40 * x + y) 80).
  - assert (x = 1) by lia. subst. cbn [app]. f_equal. f_equal. lia.
  - assert (x = 2) by lia. subst. cbn [app]. f_equal. f_equal. lia.
Qed.
Lemma oid_says_numbers c : bytes c -> oid_content c -> oid_says c (oid_numbers c).
Proof.
  intros B (ids & NE & F & ->). split; [exact B|]. unfold oid_numbers. rewrite sub_numbers_ids by assumption. destruct ids as [|s ids]; [congruence|]. cbn [map].
  exists (s :: ids). set (v := base128 s).
  destruct (N.ltb_spec v 40); [exists 0, v, (map base128 ids)|destruct (N.ltb_spec v 80); [exists 1, (v - 40), (map base128 ids)|exists 2, (v - 80), (map base128 ids)]];
    (split; [exact F|]; split; [reflexivity|]; split; [reflexivity|]; split; [cbn [map]; f_equal; fold v; lia|]; split; lia).
Qed.
(** The content octets are determined by the numbers. *)
Lemma base128_pos s : s <> [] -> Forall (fun b => 128 <= b < 256) s -> hd 0 s <> 128 -> 0 < base128 s.
Proof.
  induction s as [|l i IH] using rev_ind; intros NE F H; [congruence|]. rewrite base128_snoc. apply Forall_app in F. destruct F as [F G]. inversion G; subst.
  destruct i as [|b i].
  - cbn in H. change (base128 []) with 0. assert (l mod 128 = l - 128) by (symmetry; apply (N.mod_unique _ _ 1); lia). lia.
  - assert (0 < base128 (b :: i)) by (apply IH; [discriminate|exact F|exact H]). lia.
Qed.
Lemma base128_inj_high s : forall s', Forall (fun b => 128 <= b < 256) s -> Forall (fun b => 128 <= b < 256) s' -> hd 0 s <> 128 -> hd 0 s' <> 128 -> base128 s = base128 s' -> s = s'.
Proof.
  induction s as [|l i IH] using rev_ind; intros s' F F' H H' E.
  - destruct s'; [reflexivity|]. pose proof (base128_pos (n :: s') ltac:(discriminate) F' H'). change (base128 []) with 0 in E. lia.
  - destruct s' as [|l' i' _] using rev_ind.
    + pose proof (base128_pos (i ++ [l]) ltac:(destruct i; discriminate) F H). change (base128 []) with 0 in E. lia.
    + rewrite !base128_snoc in E. apply Forall_app in F, F'. destruct F as [F G], F' as [F' G']. inversion G; inversion G'; subst.
      assert (l mod 128 = l - 128) by (symmetry; apply (N.mod_unique _ _ 1); lia). assert (l' mod 128 = l' - 128) by (symmetry; apply (N.mod_unique _ _ 1); lia).
      assert (base128 i = base128 i' /\ l = l') as [E1 ->] by lia. f_equal. apply IH; try assumption.
      * destruct i; [cbn; lia|exact H].
      * destruct i'; [cbn; lia|exact H'].
Qed.
Lemma base128_inj s s' : subidentifier s -> subidentifier s' -> bytes s -> bytes s' -> base128 s = base128 s' -> s = s'.
Proof.
  intros (i & l & -> & F & L & H) (i' & l' & -> & F' & L' & H') B B' E. rewrite !base128_snoc, !N.mod_small in E by assumption. assert (base128 i = base128 i' /\ l = l') as [E1 ->] by lia.
  apply bytes_app in B, B'. f_equal. apply base128_inj_high; try (apply bytes_128; tauto); try exact E1.
  - destruct i; [cbn; lia|exact H].
  - destruct i'; [cbn; lia|exact H'].
Qed.
Lemma oid_unique c c' n : oid_says c n -> oid_says c' n -> c = c'.
Proof.
  intros (B & ids & x & y & t & F & -> & -> & E & X & Y) (B' & ids' & x' & y' & t' & F' & -> & En & E' & X' & Y'). injection En as <- <- <-. rewrite <- E' in E. clear - F F' E B B'.
  f_equal. revert ids' F' E B'. induction F as [|s ids S F IH]; intros [|s' ids'] F' E B'; try reflexivity; try discriminate. cbn [map] in E. injection E as E1 E2.
  inversion F'; subst. cbn [concat] in *. apply bytes_app in B, B'. f_equal; [apply base128_inj; tauto|apply IH; tauto].
Qed.

Ltac fit := repeat match goal with F : fits (concat (_ :: _)) |- _ => cbn [concat] in F | F : fits (_ ++ _) |- _ => apply fits_app in F; destruct F as [? F] end.
Lemma iit_params_complete mac pad wm ws wp t : ber_octets true mac wm -> match pad with Some p => exists v, ber_octets true p v /\ ws = [v] | None => ws = [] end ->
  ber_sequence true (wm :: ws) wp -> fits wp -> get_iit_params (wp ++ t) = Some (IITP mac pad, t).
Proof.
  intros Hm Hp S F. apply (get_seq_complete _ _ _ _ _ S F). clear F. intros F r Hr. fit. cbn [concat]. rewrite <- !app_assoc. rewrite (get_octets_complete mac) by assumption.
  destruct pad as [p|].
  - destruct Hp as (v & V & ->). cbn [concat] in *. rewrite app_nil_r in *. destruct (eoc_not_string _ _ _ r V) as [E1 (b & u & E2)]. rewrite E2. rewrite <- E2, E1.
    rewrite (get_octets_complete p) by assumption. reflexivity.
  - subst ws. cbn [concat app]. destruct Hr as [-> |Hr]; [reflexivity|]. rewrite Hr. destruct r; [discriminate|reflexivity].
Qed.
Lemma iit_complete type mac pad data w t : ber_iit true type mac pad data w -> N.of_nat (length w) < 2 ^ 31 ->
  d2i_IITStore (w ++ t) = Some (IITS (Some (IITH (Some type) (Some (IITP mac pad)))) (Some data)).
Proof.
  intros (c & wt & wm & ws & wp & wh & wd & HO & Hc & Hm & Hp & Sp & Sh & Hd & S) L. assert (F : fits w) by (unfold fits; eapply N.lt_trans; [exact L|reflexivity]).
  unfold d2i_IITStore, get_iit_store. erewrite (get_seq_complete _ _ _ (IITS (Some (IITH (Some type) (Some (IITP mac pad)))) (Some data)) t S F); [reflexivity|].
  clear F L. intros F r _. fit. cbn [concat]. rewrite app_nil_r, <- !app_assoc.
  unfold get_iit_header. erewrite (get_seq_complete _ _ _ (IITH (Some type) (Some (IITP mac pad))) _ Sh); [|assumption|].
  - rewrite (get_octets_complete data) by assumption. reflexivity.
  - clear r F. intros F r _. fit. cbn [concat]. rewrite app_nil_r, <- !app_assoc. rewrite (get_oid_complete c) by assumption. rewrite (iit_params_complete _ _ _ _ _ _ Hm Hp Sp) by assumption.
    rewrite (oid_numbers_says _ _ HO). reflexivity.
Qed.
Lemma iit_params_sound l p t : bytes l -> get_iit_params l = Some (p, t) -> exists wm ws wp, l = wp ++ t /\ ber_octets false (ip_mac p) wm /\
  match ip_pad p with Some p => exists v, ber_octets false p v /\ ws = [v] | None => ws = [] end /\ ber_sequence false (wm :: ws) wp.
Proof.
  intros B E. unfold get_iit_params in E.
  match type of E with get_seq ?FF _ = _ => destruct (get_seq_sound FF (fun p parts => exists wm ws, ber_octets false (ip_mac p) wm /\
    match ip_pad p with Some s => exists v, ber_octets false s v /\ ws = [v] | None => ws = [] end /\ parts = wm :: ws)) with (2 := B) (3 := E) as (parts & w & (wm & ws & C & Q & ->) & S & ->) end.
  - clear. intros c p t B E. destruct (get_octets c) as [[mac l1]|] eqn:E1; [|discriminate]. destruct (get_octets_sound _ _ _ B E1) as (wm & -> & M). apply bytes_app in B. destruct l1 as [|b0 l0].
    + injection E as <- <-. exists [wm]. split; [|cbn [concat]; rewrite !app_nil_r; reflexivity]. exists wm, []. split; [exact M|]. split; reflexivity.
    + set (l1 := b0 :: l0) in *. clearbody l1. destruct (is_eoc l1).
      * injection E as <- <-. exists [wm]. split; [|cbn [concat]; rewrite app_nil_r; reflexivity]. exists wm, []. split; [exact M|]. split; reflexivity.
      * destruct (get_octets l1) as [[s l2]|] eqn:E2; [|discriminate]. injection E as <- <-. destruct (get_octets_sound _ _ _ (proj2 B) E2) as (v & -> & V).
        exists [wm; v]. split; [|cbn [concat]; rewrite app_nil_r, <- app_assoc; reflexivity]. exists wm, [v]. split; [exact M|]. split; [exists v; split; [exact V|reflexivity]|reflexivity].
  - exists wm, ws, w. repeat (split; [first [reflexivity|assumption]|]). exact S.
Qed.
Lemma iit_sound l s : bytes l -> d2i_IITStore l = Some s -> exists type mac pad data w t, l = w ++ t /\ s = IITS (Some (IITH (Some type) (Some (IITP mac pad)))) (Some data) /\ ber_iit false type mac pad data w.
Proof.
  intros B E. unfold d2i_IITStore in E. destruct (get_iit_store l) as [[s' t]|] eqn:E1; [|discriminate]. injection E as ->. unfold get_iit_store in E1.
  match type of E1 with get_seq ?FF _ = _ => destruct (get_seq_sound FF (fun s parts => exists type mac pad data c wt wm ws wp wh wd, s = IITS (Some (IITH (Some type) (Some (IITP mac pad)))) (Some data) /\
    oid_says c type /\ ber_oid false c wt /\ ber_octets false mac wm /\ match pad with Some p => exists v, ber_octets false p v /\ ws = [v] | None => ws = [] end /\
    ber_sequence false (wm :: ws) wp /\ ber_sequence false [wt; wp] wh /\ ber_octets false data wd /\ parts = [wh; wd])) with (2 := B) (3 := E1)
      as (parts & w & (type & mac & pad & data & c & wt & wm & ws & wp & wh & wd & -> & H1 & H2 & H3 & H4 & H5 & H6 & H7 & ->) & S & ->) end.
  - clear. intros c s t B E. destruct (get_iit_header c) as [[h l1]|] eqn:E1; [|discriminate]. unfold get_iit_header in E1.
    match type of E1 with get_seq ?FF _ = _ => destruct (get_seq_sound FF (fun h parts => exists type mac pad c wt wm ws wp, h = IITH (Some type) (Some (IITP mac pad)) /\
      oid_says c type /\ ber_oid false c wt /\ ber_octets false mac wm /\ match pad with Some p => exists v, ber_octets false p v /\ ws = [v] | None => ws = [] end /\
      ber_sequence false (wm :: ws) wp /\ parts = [wt; wp])) with (2 := B) (3 := E1)
        as (parts & wh & (type & mac & pad & o & wt & wm & ws & wp & -> & H1 & H2 & H3 & H4 & H5 & ->) & S & ->) end.
    + clear. intros c h t B E. destruct (get_oid c) as [[o l1]|] eqn:E1; [|discriminate]. destruct (get_oid_sound _ _ _ B E1) as (wt & -> & O). apply bytes_app in B. destruct B as [Bo B].
      destruct (get_iit_params l1) as [[p l2]|] eqn:E2; [|discriminate]. destruct (iit_params_sound _ _ _ B E2) as (wm & ws & wp & -> & M & P & Q). injection E as <- <-.
      exists [wt; wp]. split; [|cbn [concat]; rewrite app_nil_r, <- app_assoc; reflexivity]. exists (oid_numbers o), (ip_mac p), (ip_pad p), o, wt, wm, ws, wp.
      split; [destruct p; reflexivity|]. split; [|repeat (split; [assumption|]); reflexivity]. apply oid_says_numbers; [|exact (proj1 O)].
      destruct O as (_ & id & u & _ & _ & ->). rewrite !bytes_app in Bo. tauto.
    + apply bytes_app in B. destruct B as [_ B]. destruct (get_octets l1) as [[d l2]|] eqn:E2; [|discriminate]. destruct (get_octets_sound _ _ _ B E2) as (wd & -> & D). injection E as <- <-.
      exists [wh; wd]. split; [|cbn [concat]; rewrite app_nil_r, <- app_assoc; reflexivity]. exists type, mac, pad, d, o, wt, wm, ws, wp, wh, wd.
      split; [reflexivity|]. repeat (split; [assumption|]). reflexivity.
  - exists type, mac, pad, data, w, t. split; [reflexivity|]. split; [reflexivity|]. exists c, wt, wm, ws, wp, wh, wd. repeat (split; [assumption|]). exact S.
Qed.
Lemma attr_complete a w t : ber_attr_spec true a w -> N.of_nat (length w) < 2 ^ 31 -> unpack_attr_spec (VOther (w ++ t)) = Some a.
Proof.
  intros (wc & w1 & w2 & C & D1 & D2 & S) L. assert (F : fits w) by (unfold fits; eapply N.lt_trans; [exact L|reflexivity]).
  unfold unpack_attr_spec, get_attr_spec. erewrite (get_seq_complete _ _ _ a t S F); [reflexivity|]. clear F L. intros F r _. fit. cbn [concat]. rewrite app_nil_r, <- !app_assoc.
  rewrite (get_custom_complete (as_spec a)), (get_octets_complete (as_dke a)), (get_octets_complete (as_dke1 a)) by assumption. destruct a. reflexivity.
Qed.
Lemma attr_sound v a : unpack_attr_spec v = Some a -> exists l, v = VOther l /\ (bytes l -> exists w t, l = w ++ t /\ ber_attr_spec false a w).
Proof.
  intros E. destruct v as [?|?|l]; try discriminate. exists l. split; [reflexivity|]. intros B. unfold unpack_attr_spec in E. destruct (get_attr_spec l) as [[a' t]|] eqn:E1; [|discriminate].
  injection E as ->. unfold get_attr_spec in E1.
  match type of E1 with get_seq ?FF _ = _ => destruct (get_seq_sound FF (fun a parts => exists wc w1 w2, ber_custom false (as_spec a) wc /\ ber_octets false (as_dke a) w1 /\ ber_octets false (as_dke1 a) w2 /\ parts = [wc; w1; w2]))
    with (2 := B) (3 := E1) as (parts & w & (wc & w1 & w2 & C & D1 & D2 & ->) & S & ->) end.
  - clear. intros c a t B E. destruct (get_custom c) as [[x1 l1]|] eqn:E1; [|discriminate]. destruct (get_custom_sound _ _ _ B E1) as (w1 & -> & D1). apply bytes_app in B. destruct B as [_ B].
    destruct (get_octets l1) as [[x2 l2]|] eqn:E2; [|discriminate]. destruct (get_octets_sound _ _ _ B E2) as (w2 & -> & D2). apply bytes_app in B. destruct B as [_ B].
    destruct (get_octets l2) as [[x3 l3]|] eqn:E3; [|discriminate]. destruct (get_octets_sound _ _ _ B E3) as (w3 & -> & D3). injection E as <- <-.
    exists [w1; w2; w3]. split; [|cbn [concat]; rewrite app_nil_r, <- !app_assoc; reflexivity]. exists w1, w2, w3. repeat (split; [assumption|]). reflexivity.
  - exists w, t. split; [reflexivity|]. exists wc, w1, w2. repeat (split; [assumption|]). exact S.
Qed.

From Verif Require Import Spec_Gost89 Spec_Hash Spec_Params Spec_Md Model_Gost89 Model_Params Model_KeyStore Spec_Key6 Proof_Key6.
From Coq Require Import Permutation.
From Verif Require Import Model_Gf2m Model_Compress Model_Ec Model_Curves Model_Sign Model_Pmeth Model_Key Model_Ameth Model_Ctx Spec_Sign Spec_Key Spec_Ctx Spec_Keylib Spec_Iit Proof_Iit.
Lemma file_plain spec grp (e : attr_env spec grp) p8 (malloc : Model_KeyStore.heap -> nat) r mac data pad password plain k file t h ks :
  ber_iit true key6_type mac pad data file -> N.of_nat (length file) < 2 ^ 31 ->
  bytes password -> hashable (length password) -> mask_wf (k6_mask r) -> bytes plain -> length plain = (8 * k)%nat ->
  data ++ match pad with None => [] | Some p => p end = key6_encrypt (key6_key password) plain -> apart r (length plain) ->
  exists slack, length slack = 8%nat /\ slack = Base.rd (k6_mem r) (k6_res r + N.of_nat (length plain)) 8 /\
    parseKey6 e p8 malloc r (d2i_IITStore (file ++ t)) password h ks = keysFromPKCS8 e malloc h (p8 (plain ++ slack)) ks.
Proof.
  intros HB HL H1 H2 H3 H4 H5 H6 H7. rewrite (iit_complete _ _ _ _ _ t HB HL). exact (parse_plain e p8 malloc r mac data pad password plain k h ks H1 H2 H3 H4 H5 H6 H7).
Qed.
Lemma file_any spec grp (e : attr_env spec grp) p8 (malloc : Model_KeyStore.heap -> nat) r file password h ks : bytes file ->
  parseKey6 e p8 malloc r (d2i_IITStore file) password h ks = Some (h, false, ks) \/
  exists mac pad data w t, file = w ++ t /\ ber_iit false key6_type mac pad data w /\
    parseKey6 e p8 malloc r (d2i_IITStore file) password h ks = parseKey6 e p8 malloc r (Some (key6_store mac data pad)) password h ks.
Proof.
  intros B. destruct (d2i_IITStore file) as [s|] eqn:E; [|left; reflexivity]. destruct (iit_sound _ _ B E) as (type & mac & pad & data & w & t & -> & -> & HB).
  destruct (list_eq_dec N.eq_dec type key6_type) as [-> |NE].
  - right. exists mac, pad, data, w, t. split; [reflexivity|]. split; [exact HB|reflexivity].
  - left. apply parse_refused. intros st [= <-] hd [= <-]. left. cbn [ih_type]. intros [= X]. exact (NE X).
Qed.
Lemma file_mac spec grp (e : attr_env spec grp) p8 (malloc : Model_KeyStore.heap -> nat) r mac mac' data pad password file file' t t' h ks :
  ber_iit true key6_type mac pad data file -> N.of_nat (length file) < 2 ^ 31 -> ber_iit true key6_type mac' pad data file' -> N.of_nat (length file') < 2 ^ 31 ->
  parseKey6 e p8 malloc r (d2i_IITStore (file ++ t)) password h ks = parseKey6 e p8 malloc r (d2i_IITStore (file' ++ t')) password h ks.
Proof. intros H1 H2 H3 H4. rewrite (iit_complete _ _ _ _ _ t H1 H2), (iit_complete _ _ _ _ _ t' H3 H4). apply parse_mac. Qed.
Lemma file_key malloc solve : allocator malloc -> never_fails malloc -> forall o vs ka h n s sp g w t, heap_ok h -> octets ka ->
  hd_error (strings (at_vals ka)) = Some s -> ber_attr_spec true sp w -> N.of_nat (length w) < 2 ^ 31 -> plain_field (cu_field (as_spec sp)) -> described solve (as_spec sp) g ->
  exists r k h' n' Q, h_makePKey malloc solve unpack_attr_spec (ATTR o (VOther (w ++ t) :: vs)) ka (h, n) = Ret (Some (r, (1158%Z, Some k)), (h', n')) /\
    read_key k (h', n') = Ret (DKEY (ECKEY (Some (Binary g)) (Some (reversed_number s)) (Some Q)) None, (h', n')) /\ key_pair g (reversed_number s) Q /\
    exists h'' n'', h_evp_free (r, (1158%Z, Some k)) (h', n') = Ret (tt, (h'', n'')) /\ Permutation h'' h.
Proof.
  intros HA NF o vs ka h n s sp g w t HO OK HS HB HL PF D. apply (iit_key malloc solve unpack_attr_spec HA NF) with (sp := sp); try assumption.
  unfold curve_specs. cbn [at_vals flat_map]. rewrite (attr_complete _ _ t HB HL). reflexivity.
Qed.
(** Short encodings, for examples. *)
Lemma ident_short b : b < 31 -> identifier true (Some b) false [b].
Proof.
  intros H. assert (M : b mod 32 = b) by (apply N.mod_small; lia). exists b, [], b. split; [reflexivity|]. split; [lia|]. split; [|split; [left; rewrite M; split; [lia|auto]|split; [lia|reflexivity]]].
  destruct (N.testbit b 5) eqn:E; [|reflexivity]. exfalso. destruct (N.eq_dec b 0) as [-> |NZ]; [discriminate|]. rewrite N.bits_above_log2 in E; [discriminate|]. apply N.log2_lt_pow2; [lia|]. change (2 ^ 5) with 32. lia.
Qed.
Lemma octets_short c : (length c < 128)%nat -> ber_octets true c (4 :: N.of_nat (length c) :: c).
Proof. intros L. apply (ber_prim true 6 (Some 4) [4] [N.of_nat (length c)] c); [apply ident_short; lia|]. left. split; [exact L|reflexivity]. Qed.
Lemma seq_short parts : (length (concat parts) < 128)%nat -> ber_sequence true parts (0x30 :: N.of_nat (length (concat parts)) :: concat parts).
Proof.
  intros L. exists [0x30]. split; [|left; exists [N.of_nat (length (concat parts))]; split; [left; split; [exact L|reflexivity]|reflexivity]].
  exists 0x30, [], 16. split; [reflexivity|]. split; [reflexivity|]. split; [reflexivity|]. split; [left; split; [discriminate|split; reflexivity]|split; reflexivity].
Qed.
Lemma key6_oid : oid_says [0x2B; 6; 1; 4; 1; 0x81; 0x97; 0x46; 1; 1; 1; 2] key6_type.
Proof.
  split; [repeat constructor|]. exists [[0x2B]; [6]; [1]; [4]; [1]; [0x81; 0x97; 0x46]; [1]; [1]; [1]; [2]], 1, 3, [6; 1; 4; 1; 19398; 1; 1; 1; 2]. split; [|repeat split; vm_compute; congruence].
  assert (S : forall b, b < 128 -> subidentifier [b]) by (intros b H; exists [], b; repeat split; [constructor|exact H|cbn; lia]).
  repeat (apply Forall_cons; [try (apply S; reflexivity)|]); [|apply Forall_nil]. exists [0x81; 0x97], 0x46. split; [reflexivity|]. split; [repeat constructor; lia|]. split; [reflexivity|discriminate].
Qed.
