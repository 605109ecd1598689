From Coq Require Import ZArith Lia.
From Verif Require Import Lib Model_KeyStore Spec_KeyStore Proof_KeyStore Model_Utils Model_ReadBio Model_Utf16 Spec_Keylib Spec_Pkcs12 Proof_Pkcs12.

(** ** Streams *)
Lemma read_loop_data : forall chunks mem total rest, Forall (fun b => b <> []) chunks ->
  read_loop (map (fun b => RdData b true) chunks ++ rest) mem total = read_loop rest (mem ++ concat chunks) (total + N.of_nat (length (concat chunks))).
Proof.
  induction chunks as [|b chunks IH]; intros mem total rest H.
  - cbn. rewrite app_nil_r. f_equal. lia.
  - inversion H as [|? ? Hb Hc]. subst. cbn [map app read_loop concat]. destruct b as [|x b]; [contradiction|].
    replace (N.of_nat (length (x :: b)) =? 0) with false by (symmetry; apply N.eqb_neq; cbn [length]; lia). cbn [negb].
    rewrite IH by exact Hc. rewrite <- app_assoc, app_length. f_equal. lia.
Qed.
Lemma concat_nonempty (chunks : list (list N)) : chunks <> [] -> Forall (fun b => b <> []) chunks -> (0 < length (concat chunks))%nat.
Proof.
  intros Hne H. destruct chunks as [|b chunks]; [contradiction|]. inversion H as [|? ? Hb _]. subst. cbn [concat]. rewrite app_length.
  destruct b; [contradiction|]. cbn [length]. lia.
Qed.
Lemma read_bio_gen {A} (parse : list N -> A) chunks ev rest : (ev = RdEnd \/ ev = RdError) -> Forall (fun b => b <> []) chunks ->
  read_bio parse (map (fun b => RdData b true) chunks ++ ev :: rest) =
  Some (match chunks with [] => None | _ => Some (parse (concat chunks)) end).
Proof.
  intros Hev H. unfold read_bio. rewrite read_loop_data by exact H. cbn [app].
  destruct chunks as [|b chunks]; [destruct Hev as [-> | ->]; reflexivity|].
  pose proof (concat_nonempty (b :: chunks) ltac:(discriminate) H) as Hp. set (l := concat (b :: chunks)) in *.
  assert (E : read_loop (ev :: rest) l (0 + N.of_nat (length l)) = Some (Some l)).
  { destruct Hev as [-> | ->]; cbn [read_loop]; replace (0 <? 0 + N.of_nat (length l)) with true by (symmetry; apply N.ltb_lt; lia); reflexivity. }
  rewrite E. replace (N.of_nat (length l) =? 0) with false by (symmetry; apply N.eqb_neq; lia). reflexivity.
Qed.
Lemma read_bio_end {A} (parse : list N -> A) chunks rest : Forall (fun b => b <> []) chunks ->
  read_bio parse (map (fun b => RdData b true) chunks ++ RdEnd :: rest) =
  Some (match chunks with [] => None | _ => Some (parse (concat chunks)) end).
Proof. apply read_bio_gen. left. reflexivity. Qed.
Lemma read_bio_error {A} (parse : list N -> A) chunks rest : Forall (fun b => b <> []) chunks -> chunks <> [] ->
  read_bio parse (map (fun b => RdData b true) chunks ++ RdError :: rest) = Some (Some (parse (concat chunks))).
Proof. intros H Hne. rewrite read_bio_gen by auto. destruct chunks; [contradiction|reflexivity]. Qed.
Lemma read_bio_zero {A} (parse : list N -> A) chunks w rest : Forall (fun b => b <> []) chunks ->
  read_bio parse (map (fun b => RdData b true) chunks ++ RdData [] w :: rest) =
  Some (match chunks with [] => None | _ => Some (parse (concat chunks)) end).
Proof.
  intros H. unfold read_bio. rewrite read_loop_data by exact H. cbn [app read_loop length]. change (N.of_nat 0 =? 0) with true. cbv iota.
  destruct chunks as [|b chunks]; [reflexivity|].
  pose proof (concat_nonempty (b :: chunks) ltac:(discriminate) H) as Hp. 
  replace (N.of_nat (length (concat (b :: chunks))) =? 0) with false by (symmetry; apply N.eqb_neq; lia). reflexivity.
Qed.
Lemma read_bio_write_fails {A} (parse : list N -> A) chunks b rest : Forall (fun b => b <> []) chunks -> b <> [] ->
  read_bio parse (map (fun b => RdData b true) chunks ++ RdData b false :: rest) = Some None.
Proof.
  intros H Hb. unfold read_bio. rewrite read_loop_data by exact H. cbn [app read_loop]. destruct b as [|x b]; [contradiction|].
  replace (N.of_nat (length (x :: b)) =? 0) with false by (symmetry; apply N.eqb_neq; cbn [length]; lia). reflexivity.
Qed.

(** ** UTF-16 *)
Lemma iconv_call_spec : forall cs ok room, exists k, (k <= length cs)%nat /\
  iconv_call cs ok room = (concat (firstn k cs), skipn k cs, if (k =? length cs)%nat then (if ok then IcDone else IcBad) else IcE2BIG) /\
  (k < length cs -> forall c, nth_error cs k = Some c -> room < length (concat (firstn k cs)) + length c)%nat.
Proof.
  induction cs as [|c cs IH]; intros ok room.
  - exists 0%nat. split; [cbn; lia|]. split; [reflexivity|]. cbn. lia.
  - cbn [iconv_call]. destruct (Nat.leb_spec (length c) room) as [Hle|Hgt].
    + destruct (IH ok (room - length c)%nat) as [k [Hk [E Hr]]]. exists (S k). split; [cbn; lia|]. rewrite E. split; [reflexivity|].
      intros Hlt c' Hc'. cbn [length nth_error] in *. specialize (Hr ltac:(lia) c' Hc'). cbn [firstn concat]. rewrite app_length. lia.
    + exists 0%nat. split; [lia|]. split; [reflexivity|]. intros _ c' [= <-]. cbn. lia.
Qed.
Definition slack (buf : nat) : nat := if (4 <=? buf)%nat then 1 else if (2 <=? buf)%nat then 2 else 3.
Lemma conv_loop_spec : forall fuel cs ok buf res, Forall char_ok cs -> (1 <= buf)%nat -> (length cs + slack buf <= fuel)%nat ->
  conv_loop fuel cs ok buf res = Some (if ok then Some (res ++ concat cs) else None).
Proof.
  induction fuel as [|fuel IH]; intros cs ok buf res Hcs Hb Hf.
  - exfalso. unfold slack in Hf. destruct (4 <=? buf)%nat; [lia|]. destruct (2 <=? buf)%nat; lia.
  - cbn [conv_loop]. destruct (iconv_call_spec cs ok buf) as [k [Hk [E Hr]]].
    assert (Hgen : (let '(o, r, s) := iconv_call cs ok buf in
              match s with
              | IcDone => Some (Some (res ++ o))
              | IcE2BIG => conv_loop fuel r ok (2 * buf) (res ++ o)
              | IcBad => Some None
              end) = Some (if ok then Some (res ++ concat cs) else None)).
    { rewrite E. destruct (Nat.eqb_spec k (length cs)) as [->|Hne].
      - rewrite firstn_all. destruct ok; reflexivity.
      - rewrite IH.
        + destruct ok; [|reflexivity]. rewrite <- app_assoc, <- concat_app, firstn_skipn. reflexivity.
        + apply Forall_forall. rewrite Forall_forall in Hcs. intros c Hc. apply Hcs. rewrite <- (firstn_skipn k cs). apply in_or_app. right. exact Hc.
        + lia.
        + rewrite skipn_length.
          destruct (nth_error cs k) as [c|] eqn:Ec; [|apply nth_error_None in Ec; lia].
          specialize (Hr ltac:(lia) c eq_refl).
          assert (Hc : char_ok c) by (rewrite Forall_forall in Hcs; apply Hcs; eapply nth_error_In; exact Ec). unfold char_ok in Hc.
          destruct (Nat.le_gt_cases 4 buf) as [H4|H4].
          * assert (k <> 0)%nat by (intros ->; cbn in Hr; lia).
            unfold slack in *. destruct (Nat.leb_spec 4 (2 * buf)); [|lia]. destruct (Nat.leb_spec 4 buf); lia.
          * unfold slack in *. destruct (Nat.leb_spec 4 buf); [lia|]. destruct (Nat.leb_spec 4 (2 * buf)); destruct (Nat.leb_spec 2 buf); destruct (Nat.leb_spec 2 (2 * buf)); lia. }
    destruct cs as [|c cs]; [destruct ok; [rewrite app_nil_r; reflexivity|exact Hgen]|exact Hgen].
Qed.
Lemma utf16_spec cs ok size fuel : Forall char_ok cs -> (1 <= size \/ cs = [] /\ ok = true)%nat -> (length cs + 3 <= fuel)%nat ->
  toUTF16BE fuel (cs, ok) size = Some (if ok then match cs with [] => None | _ => Some (concat cs) end else None).
Proof.
  intros Hcs Hs Hf. unfold toUTF16BE. cbn [fst snd].
  assert (E : conv_loop fuel cs ok size [] = Some (if ok then Some (concat cs) else None)).
  { destruct Hs as [Hs|[-> ->]].
    - apply conv_loop_spec; [exact Hcs|exact Hs|]. unfold slack. destruct (4 <=? size)%nat; [lia|]. destruct (2 <=? size)%nat; lia.
    - destruct fuel; [cbn in Hf; lia|reflexivity]. }
  rewrite E. destruct ok; [|reflexivity]. destruct cs as [|c cs]; [reflexivity|]. inversion Hcs as [|? ? Hc _]. subst. unfold char_ok in Hc.
  cbn [concat]. destruct c as [|x c]; [cbn in Hc; lia|reflexivity].
Qed.

(** ** Private numbers *)
Lemma swap_loop_spec : forall data buf, swap_loop data buf = rev (map swap_bits data) ++ buf.
Proof. induction data as [|b t IH]; intros buf; [reflexivity|]. cbn [swap_loop map rev]. rewrite IH, <- app_assoc. reflexivity. Qed.
Definition byte_check (P : N -> bool) : bool := forallb P (map N.of_nat (seq 0 256)).
Lemma byte_all P : byte_check P = true -> forall b, b < 256 -> P b = true.
Proof.
  intros H b Hb. unfold byte_check in H. rewrite forallb_forall in H. apply H. rewrite in_map_iff. exists (N.to_nat b).
  split; [apply N2Nat.id|]. apply in_seq. lia.
Qed.
Lemma swap_bits_digits b : b < 256 -> swap_bits b = from_digits (octet_digits b).
Proof. intros Hb. apply N.eqb_eq. revert b Hb. apply byte_all. vm_compute. reflexivity. Qed.
Lemma swap_bits_byte b : b < 256 -> swap_bits b < 256.
Proof. intros Hb. apply N.ltb_lt. revert b Hb. apply byte_all. vm_compute. reflexivity. Qed.
Lemma swap_bits_invol b : b < 256 -> swap_bits (swap_bits b) = b.
Proof. intros Hb. apply N.eqb_eq. revert b Hb. apply (byte_all (fun b => swap_bits (swap_bits b) =? b)). vm_compute. reflexivity. Qed.
Lemma from_digits_app a b : from_digits (a ++ b) = from_digits a + 2 ^ N.of_nat (length a) * from_digits b.
Proof.
  induction a as [|d a IH]; cbn [app from_digits length]; [cbn; lia|]. rewrite IH, Nat2N.inj_succ, N.pow_succ_r'. lia.
Qed.
Lemma private_number s : bytes s -> be_val (swap_loop s []) = reversed_number s.
Proof.
  intros Hs. rewrite swap_loop_spec, app_nil_r. unfold be_val. rewrite rev_involutive. unfold reversed_number.
  induction Hs as [|b s Hb Hs IH]; [reflexivity|]. cbn [map le_val flat_map]. rewrite from_digits_app, <- IH, swap_bits_digits by exact Hb. reflexivity.
Qed.
Lemma map_swap_bytes s : bytes s -> bytes (map swap_bits s).
Proof. induction 1; constructor; [apply swap_bits_byte; assumption|assumption]. Qed.
Lemma private_involution s : bytes s -> reversed_number (be_bytes (length s) (reversed_number s)) = be_val s /\ reversed_number s < 256 ^ N.of_nat (length s).
Proof.
  intros Hs. rewrite <- (private_number s Hs), swap_loop_spec, app_nil_r. unfold be_val at 1 3. rewrite rev_involutive.
  pose proof (map_swap_bytes s Hs) as Hm.
  assert (E : be_bytes (length s) (le_val (map swap_bits s)) = rev (map swap_bits s)).
  { unfold be_bytes. rewrite <- (map_length swap_bits s), le_bytes_le_val by exact Hm. reflexivity. }
  split.
  - rewrite E. rewrite <- private_number by (apply bytes_rev; exact Hm). rewrite swap_loop_spec, app_nil_r. unfold be_val. rewrite rev_involutive.
    f_equal. rewrite map_rev, map_map. f_equal. clear E Hm.
    induction Hs as [|b s Hb Hs IH]; [reflexivity|]. cbn [map]. rewrite IH, swap_bits_invol by exact Hb. reflexivity.
  - pose proof (le_val_lt _ Hm) as Hlt. rewrite map_length in Hlt. exact Hlt.
Qed.
Lemma reversed_bits s i : bytes s -> N.testbit (reversed_number s) i = nth (N.to_nat i) (flat_map octet_digits s) false.
Proof.
  intros _. unfold reversed_number. generalize (flat_map octet_digits s) as l. intros l. revert i.
  induction l as [|d l IH]; intros i; cbn [from_digits]; [rewrite N.bits_0; destruct (N.to_nat i); reflexivity|].
  destruct (N.eq_dec i 0) as [->|Hi].
  - change (nth (N.to_nat 0) (d :: l) false) with d. rewrite N.add_comm, N.testbit_0_r. reflexivity.
  - replace i with (N.succ (N.pred i)) at 1 by lia. rewrite N.add_comm, N.testbit_succ_r, IH.
    replace (N.to_nat i) with (S (N.to_nat (N.pred i))) by lia. reflexivity.
Qed.

(** ** Field polynomials *)
Lemma asn1_get_small x : (- 2 ^ 31 <= x < 2 ^ 31)%Z -> asn1_get x = x.
Proof.
  intros H. unfold asn1_get. replace ((- 2 ^ 63 <=? x) && (x <? 2 ^ 63))%Z with true; [|symmetry; apply andb_true_iff; split; lia].
  cbv zeta. rewrite Z.mod_small by lia. lia.
Qed.
Lemma asn1_get_bounds x : (- 2 ^ 31 <= asn1_get x < 2 ^ 31)%Z.
Proof. unfold asn1_get. cbv zeta. match goal with |- context [((?v + 2 ^ 31) mod 2 ^ 32)%Z] => pose proof (Z.mod_pos_bound (v + 2 ^ 31) (2 ^ 32) eq_refl) end. lia. Qed.
Lemma arr2poly_spec : forall l acc, Forall (fun x => 0 <= x)%Z l ->
  exists p, arr2poly (l ++ [-1]%Z) acc = Some p /\ forall i, N.testbit p i = true <-> (N.testbit acc i = true \/ In (Z.of_N i) l).
Proof.
  induction l as [|x l IH]; intros acc H; [exists acc; cbn; split; [reflexivity|intros i; tauto]|].
  inversion H as [|? ? Hx Hl]. subst. cbn [app arr2poly]. replace (x =? -1)%Z with false by lia. replace (x <? 0)%Z with false by lia.
  destruct (IH (N.lor acc (N.shiftl 1 (Z.to_N x))) Hl) as [p [E Hp]]. exists p. split; [exact E|]. intros i. rewrite Hp, N.lor_spec, orb_true_iff.
  rewrite N.shiftl_1_l, N.pow2_bits_eqb, N.eqb_eq. cbn [In]. split.
  - intros [[Ha|Ha]|Ha]; [left; exact Ha|right; left; lia|right; right; exact Ha].
  - intros [Ha|[Ha|Ha]]; [left; left; exact Ha|left; right; lia|right; exact Ha].
Qed.
Lemma arr2poly_with l : Forall (fun x => 0 <= x)%Z l -> exists p, arr2poly (l ++ [-1]%Z) 0 = Some p /\ poly_with l p.
Proof.
  intros H. destruct (arr2poly_spec l 0 H) as [p [E Hp]]. exists p. split; [exact E|]. intros i. rewrite Hp, N.bits_0. intuition discriminate.
Qed.
Lemma poly_with_unique l l' p q : (forall x, In x l <-> In x l') -> poly_with l p -> poly_with l' q -> p = q.
Proof.
  intros HL Hp Hq. apply N.bits_inj. intros i. apply eq_true_iff_eq. rewrite (Hp i), (Hq i). apply HL.
Qed.
Lemma makePoly_good f : good_field f -> exists p, makePoly f = Some p /\ poly_with (exponents f) p.
Proof.
  intros [Hm Hp]. unfold makePoly, good_exponent in *. rewrite asn1_get_small by lia. destruct (bf_poly f) as [k|k j l] eqn:E.
  - rewrite asn1_get_small by lia. unfold exponents. rewrite E.
    destruct (arr2poly_with [bf_m f; k; 0]%Z) as [p Hq]; [repeat constructor; lia|]. exists p. exact Hq.
  - rewrite !asn1_get_small by lia. unfold exponents. rewrite E.
    destruct (arr2poly_with [bf_m f; k; j; l; 0]%Z) as [p Hq]; [repeat constructor; lia|]. exists p. exact Hq.
Qed.
Lemma poly_of_spec_good f : good_field f -> exists p, poly_of_spec f = Some p /\ poly_with (exponents f) p.
Proof.
  intros [Hm Hp]. unfold poly_of_spec, good_exponent in *. rewrite asn1_get_small by lia. cbv zeta. replace (bf_m f <=? 0)%Z with false by lia. destruct (bf_poly f) as [k|k j l] eqn:E.
  - rewrite asn1_get_small by lia. replace (k <=? 0)%Z with false by lia. unfold exponents. rewrite E.
    destruct (arr2poly_with [bf_m f; k; 0]%Z) as [p Hq]; [repeat constructor; lia|]. exists p. exact Hq.
  - rewrite !asn1_get_small by lia. replace (k <=? 0)%Z with false by lia. replace (j <=? 0)%Z with false by lia. replace (l <=? 0)%Z with false by lia.
    unfold exponents. rewrite E.
    destruct (arr2poly_with [bf_m f; l; j; k; 0]%Z) as [p [Hq1 Hq2]]; [repeat constructor; lia|]. exists p. split; [exact Hq1|].
    intros i. rewrite (Hq2 i). cbn. intuition.
Qed.
(** What the second reader reads is what the field holds, as C ints. *)
Definition as_ints (f : bfield) : bfield :=
  BF (asn1_get (bf_m f)) (match bf_poly f with Trinomial k => Trinomial (asn1_get k) | Pentanomial k j l => Pentanomial (asn1_get k) (asn1_get j) (asn1_get l) end).
Lemma asn1_get_idem x : asn1_get (asn1_get x) = asn1_get x.
Proof. apply asn1_get_small. apply asn1_get_bounds. Qed.
Lemma makePoly_ints f : makePoly (as_ints f) = makePoly f.
Proof. unfold makePoly, as_ints. cbn [bf_m bf_poly]. destruct (bf_poly f); rewrite !asn1_get_idem; reflexivity. Qed.
Lemma poly_of_spec_ints f : poly_of_spec (as_ints f) = poly_of_spec f.
Proof. unfold poly_of_spec, as_ints. cbn [bf_m bf_poly]. destruct (bf_poly f); rewrite !asn1_get_idem; reflexivity. Qed.
Lemma poly_of_spec_some f q : poly_of_spec f = Some q -> good_field (as_ints f).
Proof.
  unfold poly_of_spec, good_field, as_ints, good_exponent. cbn [bf_m bf_poly]. cbv zeta.
  pose proof (asn1_get_bounds (bf_m f)) as Bm. destruct (Z.leb_spec (asn1_get (bf_m f)) 0); [discriminate|].
  destruct (bf_poly f) as [k|k j l].
  - pose proof (asn1_get_bounds k). destruct (Z.leb_spec (asn1_get k) 0); [discriminate|]. intros _. lia.
  - pose proof (asn1_get_bounds k). pose proof (asn1_get_bounds j). pose proof (asn1_get_bounds l).
    destruct (Z.leb_spec (asn1_get l) 0); [discriminate|]. destruct (Z.leb_spec (asn1_get j) 0); [discriminate|]. destruct (Z.leb_spec (asn1_get k) 0); [discriminate|]. intros _. lia.
Qed.
Lemma poly_agree f p q : makePoly f = Some p -> poly_of_spec f = Some q -> p = q.
Proof.
  intros Hp Hq. pose proof (poly_of_spec_some _ _ Hq) as G. rewrite <- makePoly_ints in Hp. rewrite <- poly_of_spec_ints in Hq.
  destruct (makePoly_good _ G) as [p' [E1 P1]]. destruct (poly_of_spec_good _ G) as [q' [E2 P2]].
  rewrite E1 in Hp. rewrite E2 in Hq. injection Hp as <-. injection Hq as <-. eapply poly_with_unique; [|exact P1|exact P2]. reflexivity.
Qed.
Lemma poly_both f : good_field f -> exists p, makePoly f = Some p /\ poly_of_spec f = Some p /\ poly_with (exponents f) p.
Proof.
  intros G. destruct (makePoly_good f G) as [p [E1 P1]]. destruct (poly_of_spec_good f G) as [q [E2 P2]]. exists p. split; [exact E1|].
  split; [|exact P1]. rewrite E2. f_equal. eapply poly_with_unique; [|exact P2|exact P1]. reflexivity.
Qed.
Lemma poly_order m k j l k' j' l' : good_field (BF m (Pentanomial k j l)) -> (forall x, In x [k;j;l] <-> In x [k';j';l']) ->
  makePoly (BF m (Pentanomial k' j' l')) = makePoly (BF m (Pentanomial k j l)) /\
  poly_of_spec (BF m (Pentanomial k' j' l')) = poly_of_spec (BF m (Pentanomial k j l)).
Proof.
  intros G HP.
  assert (G' : good_field (BF m (Pentanomial k' j' l'))).
  { destruct G as [Gm [Gk [Gj Gl]]]. cbn [bf_m bf_poly] in *.
    assert (HG : forall x, In x [k'; j'; l'] -> good_exponent x) by (intros x Hx; apply HP in Hx; cbn in Hx; destruct Hx as [<-|[<-|[<-|[]]]]; assumption).
    split; [exact Gm|]. cbn [bf_poly]. split; [|split]; apply HG; cbn; auto. }
  destruct (poly_both _ G) as [p [E1 [E2 P]]]. destruct (poly_both _ G') as [q [E3 [E4 Q]]]. rewrite E1, E2, E3, E4.
  assert (p = q) as ->; [|split; reflexivity]. eapply poly_with_unique; [|exact P|exact Q]. intros x. unfold exponents. cbn [bf_m bf_poly].
  change (In x ((m :: [k; j; l]) ++ [0%Z]) <-> In x ((m :: [k'; j'; l']) ++ [0%Z])). rewrite !in_app_iff. specialize (HP x).
  change (In x (m :: [k; j; l])) with (m = x \/ In x [k; j; l]). change (In x (m :: [k'; j'; l'])) with (m = x \/ In x [k'; j'; l']). rewrite HP. reflexivity.
Qed.

(** ** Keys from PKCS#8 *)
Lemma oid_eqb_spec a b : oid_eqb a b = true <-> a = b.
Proof.
  revert b. induction a as [|x a IH]; intros [|y b]; cbn; try (split; [discriminate|discriminate]); [split; reflexivity|].
  rewrite andb_true_iff, N.eqb_eq, IH. split; [intros [-> ->]; reflexivity|intros [= -> ->]; split; reflexivity].
Qed.
Lemma typed_cases o x : typed o (Some x) = match at_obj x with Some o' => if oid_eqb o' o then [x] else [] | None => [] end.
Proof.
  cbn. destruct (at_obj x) as [o'|]; [|reflexivity]. destruct (list_eq_dec N.eq_dec o' o) as [->|Hne].
  - rewrite (proj2 (oid_eqb_spec o o) eq_refl). reflexivity.
  - destruct (oid_eqb o' o) eqn:E; [apply oid_eqb_spec in E; contradiction|reflexivity].
Qed.
Definition later {A} (l : list A) (d : option A) : option A := match hd_error (rev l) with Some x => Some x | None => d end.
Lemma later_cons {A} (x : A) l d : later (x :: l) d = later l (Some x).
Proof. unfold later. cbn [rev]. destruct (rev l) as [|y r]; reflexivity. Qed.
Lemma attr_loop_spec : forall l c k, attr_loop l c k =
  (later (flat_map (typed dstu4145CurveOID) l) c, later (flat_map (typed dstu4145KeyOID) l) k).
Proof.
  induction l as [|[x|] l IH]; intros c k; [reflexivity| |apply IH].
  cbn [attr_loop flat_map]. rewrite !typed_cases. destruct (at_obj x) as [o|]; [|apply IH].
  destruct (oid_eqb o dstu4145CurveOID) eqn:E1.
  - apply oid_eqb_spec in E1. subst o. change (oid_eqb dstu4145CurveOID dstu4145KeyOID) with false. cbn [app]. rewrite IH, later_cons. reflexivity.
  - destruct (oid_eqb o dstu4145KeyOID); cbn [app]; rewrite IH; [rewrite later_cons|]; reflexivity.
Qed.
Lemma attr_loop_last l : attr_loop l None None = (last_typed iit_curve_oid l, last_typed iit_key_oid l).
Proof.
  change iit_curve_oid with dstu4145CurveOID. change iit_key_oid with dstu4145KeyOID. rewrite attr_loop_spec. unfold later, last_typed.
  destruct (hd_error (rev (flat_map (typed dstu4145CurveOID) l))), (hd_error (rev (flat_map (typed dstu4145KeyOID) l))); reflexivity.
Qed.
Lemma first_string_hd vs : first_string vs = hd_error (strings vs).
Proof. induction vs as [|[s|s|s] vs IH]; try reflexivity. exact IH. Qed.
Lemma first_spec_hd {spec grp} (e : attr_env spec grp) vs : first_spec e vs = hd_error (specs e vs).
Proof. induction vs as [|v vs IH]; [reflexivity|]. unfold specs. cbn [first_spec flat_map]. destruct (ae_unpack e v); [reflexivity|exact IH]. Qed.

Lemma last_typed_in o l a : last_typed o l = Some a -> In (Some a) l.
Proof.
  unfold last_typed. intros H. assert (Hin : In a (flat_map (typed o) l)).
  { apply in_rev. destruct (rev (flat_map (typed o) l)) as [|y r]; [discriminate|]. injection H as ->. left. reflexivity. }
  apply in_flat_map in Hin. destruct Hin as [[x|] [H1 H2]]; [|contradiction]. rewrite typed_cases in H2.
  destruct (at_obj x); [|contradiction]. destruct (oid_eqb _ _); [|contradiction]. destruct H2 as [->|[]]. exact H1.
Qed.
Lemma hd_error_in {A} (l : list A) x : hd_error l = Some x -> In x l.
Proof. destruct l; [discriminate|]. intros [= ->]. left. reflexivity. Qed.

Lemma getPrivateKeyNum_spec a : (forall s, In s (strings (at_vals a)) -> bytes s) ->
  getPrivateKeyNum a = match hd_error (strings (at_vals a)) with Some s => Some (reversed_number s) | None => None end.
Proof.
  intros Hb. unfold getPrivateKeyNum. rewrite first_string_hd. destruct (hd_error (strings (at_vals a))) as [s|] eqn:E; [|reflexivity].
  rewrite private_number; [reflexivity|]. apply Hb. apply hd_error_in. exact E.
Qed.

Lemma getPrivateKeyNum_none a : strings (at_vals a) = [] -> getPrivateKeyNum a = None.
Proof. intros E. unfold getPrivateKeyNum. rewrite first_string_hd, E. reflexivity. Qed.
Lemma private_num_bits a s : hd_error (strings (at_vals a)) = Some s -> (forall t, In t (strings (at_vals a)) -> bytes t) ->
  getPrivateKeyNum a = Some (reversed_number s) /\
  (forall i, N.testbit (reversed_number s) i = nth (N.to_nat i) (flat_map octet_digits s) false).
Proof.
  intros H Hb. split; [rewrite getPrivateKeyNum_spec by exact Hb; rewrite H; reflexivity|].
  intros i. apply reversed_bits. apply Hb. apply hd_error_in. exact H.
Qed.

Lemma pkeyFromAttributes_spec {spec grp} (e : attr_env spec grp) l k : attrs_bytes l -> (pkeyFromAttributes e l = Some k <-> second_key e l k).
Proof.
  intros Hb. unfold pkeyFromAttributes, second_key. rewrite attr_loop_last. split.
  - destruct (last_typed iit_curve_oid l) as [ca|] eqn:E1; [|discriminate]. destruct (last_typed iit_key_oid l) as [ka|] eqn:E2; [|discriminate].
    unfold makePKey, makeECGROUP. rewrite getPrivateKeyNum_spec, first_spec_hd by (intros s; apply Hb; apply (last_typed_in _ _ _ E2)).
    destruct (hd_error (strings (at_vals ka))) as [d|] eqn:E3; [|discriminate].
    destruct (hd_error (specs e (at_vals ca))) as [s|] eqn:E4; [|discriminate]. destruct (ae_group e s) as [g|] eqn:E5; [|discriminate].
    intros H. exists ca, ka, s, g, d. split; [reflexivity|]. split; [reflexivity|]. split; [assumption|]. split; [assumption|]. split; assumption.
  - intros [ca [ka [s [g [d [E1 [E2 [E3 [E4 [E5 E6]]]]]]]]]]. rewrite E1, E2. unfold makePKey, makeECGROUP.
    rewrite getPrivateKeyNum_spec, first_spec_hd by (intros x; apply Hb; apply (last_typed_in _ _ _ E2)). rewrite E3, E4, E5. exact E6.
Qed.

Lemma ks_num_certs0 h a k : shows (ks_new h a k 0) a Certs [].
Proof. apply filled_shows. apply new_filled. Qed.
Lemma filled_cert_kept h h' a : only h h' (fun j e => j = a /\ e = Keys) -> filled h a Certs [] 0 -> filled h' a Certs [] 0.
Proof. intros O H. eapply filled_other; [exact O|discriminate|exact H]. Qed.

Lemma keysFromPKCS8_ok {spec grp} (e : attr_env spec grp) m h i pkey1 ks : malloc_ok m -> p8_pkey i = Some pkey1 ->
  exists h' a, keysFromPKCS8 e m h (Some i) ks = Some (h', true, Some a) /\ a = m h /\ hp_store h a = None /\
    filled h' a Keys (pkey1 :: match pkeyFromAttributes e (p8_attrs i) with Some k => [k] | None => [] end) 0 /\ filled h' a Certs [] 0 /\
    (forall j, j <> a -> hp_store h' j = hp_store h j) /\ same_freed h h'.
Proof.
  intros Hm Hk. unfold keysFromPKCS8. rewrite Hk. cbv zeta. set (a := m h).
  assert (Hnew : forall k c, same_freed h (ks_new h a k c)) by (intros; split; reflexivity).
  destruct (pkeyFromAttributes e (p8_attrs i)) as [k2|].
  - destruct (new_filled h a 2 0) as [Fk Fc]. destruct (fill_one _ _ _ _ _ pkey1 Fk) as [h1 [E1 [F1 [O1 S1]]]]. cbn [length app] in *. rewrite E1.
    destruct (fill_one _ _ _ _ _ k2 F1) as [h2 [E2 [F2 [O2 S2]]]]. cbn [length app] in *. rewrite E2.
    exists h2, a. split; [reflexivity|]. split; [reflexivity|]. split; [apply Hm|]. split; [exact F2|].
    split; [eapply filled_cert_kept; [exact O2|]; eapply filled_cert_kept; [exact O1|exact Fc]|]. split.
    + intros j Hj. rewrite (only_store h1 h2 a), (only_store (ks_new h a 2 0) h1 a), new_other; auto; (eapply only_weak; [|eassumption]); cbn; tauto.
    + eapply same_freed_trans; [|exact S2]. eapply same_freed_trans; [apply Hnew|exact S1].
  - destruct (new_filled h a 1 0) as [Fk Fc]. destruct (fill_one _ _ _ _ _ pkey1 Fk) as [h1 [E1 [F1 [O1 S1]]]]. cbn [length app] in *. rewrite E1.
    exists h1, a. split; [reflexivity|]. split; [reflexivity|]. split; [apply Hm|]. split; [exact F1|].
    split; [eapply filled_cert_kept; [exact O1|exact Fc]|]. split.
    + intros j Hj. rewrite (only_store (ks_new h a 1 0) h1 a), new_other; auto. (eapply only_weak; [|eassumption]); cbn; tauto.
    + eapply same_freed_trans; [apply Hnew|exact S1].
Qed.

Lemma keysFromPKCS8_api {spec grp} (e : attr_env spec grp) m h i ks : malloc_ok m -> attrs_bytes (p8_attrs i) ->
  match p8_pkey i with
  | None => keysFromPKCS8 e m h (Some i) ks = Some (h, false, ks)
  | Some k1 =>
      exists h' a second, keysFromPKCS8 e m h (Some i) ks = Some (h', true, Some a) /\ hp_store h a = None /\
        shows h' a Keys (k1 :: second) /\ shows h' a Certs [] /\
        (forall k2, second = [k2] <-> second_key e (p8_attrs i) k2) /\ (second = [] <-> ~ exists k2, second_key e (p8_attrs i) k2) /\
        (forall j, hp_store h j <> None -> hp_store h' j = hp_store h j) /\ hp_fk h' = hp_fk h /\ hp_fc h' = hp_fc h
  end.
Proof.
  intros Hm Hb. destruct (p8_pkey i) as [k1|] eqn:E; [|unfold keysFromPKCS8; rewrite E; reflexivity].
  destruct (keysFromPKCS8_ok e m h i k1 ks Hm E) as [h' [a [E' [Ea [Hn [Fk [Fc [O S]]]]]]]].
  exists h', a. eexists. split; [exact E'|]. split; [exact Hn|]. split; [apply filled_shows; exact Fk|]. split; [apply filled_shows; exact Fc|].
  split; [|split; [|split; [|exact S]]].
  - intros k2. rewrite <- (pkeyFromAttributes_spec e _ k2 Hb). destruct (pkeyFromAttributes e (p8_attrs i)); [|split; discriminate].
    split; intros [= ->]; reflexivity.
  - split.
    + intros Hs [k2 Hk]. apply (pkeyFromAttributes_spec e _ k2 Hb) in Hk. rewrite Hk in Hs. discriminate.
    + intros Hno. destruct (pkeyFromAttributes e (p8_attrs i)) as [k2|] eqn:Ek; [|reflexivity]. exfalso. apply Hno. exists k2. apply (pkeyFromAttributes_spec e _ k2 Hb). exact Ek.
  - intros j Hj. apply O. intros ->. contradiction.
Qed.

(** What each reader refuses. *)
Lemma arr2poly_none : forall l acc, ~ In (-1)%Z l -> (arr2poly (l ++ [-1]%Z) acc = None <-> Exists (fun x => x < 0)%Z l).
Proof.
  induction l as [|x l IH]; intros acc Hn.
  - cbn. split; [discriminate|]. intros H. inversion H.
  - cbn [app arr2poly]. destruct (Z.eqb_spec x (-1)) as [->|Hx]; [exfalso; apply Hn; left; reflexivity|].
    destruct (Z.ltb_spec x 0) as [H0|H0].
    + split; [intros _; left; exact H0|reflexivity].
    + rewrite IH by (intros H; apply Hn; right; exact H). split; [intros H; right; exact H|]. intros H. inversion H; [lia|assumption].
Qed.
Lemma makePoly_refuses f : int_field f -> ~ In (-1)%Z (exponents f) -> (makePoly f = None <-> Exists (fun x => x < 0)%Z (exponents f)).
Proof.
  intros Hi Hn. rewrite <- (arr2poly_none (exponents f) 0 Hn). unfold makePoly, exponents, int_field in *.
  destruct f as [m [k|k j l]]; cbn [bf_m bf_poly app] in *; rewrite !asn1_get_small; try reflexivity;
    rewrite Forall_forall in Hi; apply Hi; cbn; tauto.
Qed.
Lemma spec_refuses f : int_field f -> (poly_of_spec f = None <-> ~ good_field f).
Proof.
  intros Hi. assert (He : as_ints f = f).
  { unfold as_ints. unfold int_field, exponents in Hi. rewrite Forall_forall in Hi. destruct f as [m [k|k j l]]; cbn [bf_m bf_poly app] in *;
      rewrite !asn1_get_small; try reflexivity; apply Hi; cbn; tauto. }
  split.
  - intros H G. destruct (poly_of_spec_good f G) as [p [E _]]. congruence.
  - intros G. destruct (poly_of_spec f) as [q|] eqn:E; [|reflexivity]. apply poly_of_spec_some in E. rewrite He in E. contradiction.
Qed.
Lemma zero_differs m : good_exponent m -> exists p, makePoly (BF m (Trinomial 0)) = Some p /\ poly_of_spec (BF m (Trinomial 0)) = None.
Proof.
  intros Hm. unfold good_exponent in Hm. destruct (arr2poly_with [m; 0; 0]%Z) as [p [E _]]; [repeat constructor; lia|]. exists p.
  unfold makePoly, poly_of_spec. cbn [bf_m bf_poly]. rewrite !asn1_get_small by lia. split; [exact E|]. cbv zeta. replace (m <=? 0)%Z with false by lia. reflexivity.
Qed.
