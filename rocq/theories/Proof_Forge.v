(** Proofs: signatures made without the private key, and signatures accepted under several keys. *)
From Coq Require Import Lia ZArith Znumtheory Setoid.
From Verif Require Import Base Lib Model_Gf2m Model_Compress Model_Ec Model_Curves Model_Sign Spec_Gf2m Spec_Compress Spec_Curves Spec_Sign
  Proof_Gf2 Proof_Field Proof_Irr Proof_Compress Proof_Ec Proof_Ec2 Proof_Curves Proof_Curves2 Proof_Curves3 Proof_Curves4 Proof_Primes Proof_Sign Proof_Sign2 Proof_SignBind.

(** ** more about multiples *)
Section Dist.
Variables p a b : N.
Hypothesis Hp : 1 < p.
Hypothesis Hirr : irreducible p.
Hypothesis Ha : elem p a.
Hypothesis Hb : elem p b.
Hypothesis Hb0 : b <> 0.
Notation c := (CURVE p a b).
Notation pt := (pt p a b).
Let assoc := padd_assoc p a b Hp Hirr Ha Hb Hb0.
Let comm := padd_comm p a b Hp Hirr Ha.
Let addpt := padd_pt p a b Hp Hirr Ha.
Let negpt := pneg_pt p a b Hp.
Let mulpt := pmul_pt p a b Hp Hirr Ha Hb Hb0.

Lemma pmul_padd k P Q : pt P -> pt Q -> pmul c k (padd c P Q) = padd c (pmul c k P) (pmul c k Q).
Proof.
  intros HP HQ. rewrite !(pmul_nmul p a b Hp Hirr Ha Hb Hb0) by (try apply addpt; assumption). generalize (N.to_nat k). intros j.
  pose proof (nmul_pt p a b Hp Hirr Ha) as NP.
  induction j as [|j IH]; [reflexivity|]. cbn [nmul]. rewrite IH.
  pose proof (NP j P HP) as A. pose proof (NP j Q HQ) as B. set (u := nmul p a b j P) in *. set (v := nmul p a b j Q) in *.
  rewrite assoc by (try apply addpt; assumption). rewrite <- (assoc v P Q) by assumption. rewrite (comm v P) by assumption.
  rewrite (assoc P v Q) by assumption. rewrite <- assoc by (try apply addpt; assumption). reflexivity.
Qed.
Lemma twin_eq n r s w G Q : pt G -> pt Q -> n <> 0 -> pmul c n G = None -> (w * r) mod n = (2 * s) mod n ->
  padd c (pmul c s G) (pmul c r (pneg (padd c (pmul c w G) Q))) = pneg (padd c (pmul c s G) (pmul c r Q)).
Proof.
  intros HG HQ Hn E M. rewrite (pmul_pneg p a b Hp Hirr Ha Hb Hb0) by (apply addpt; [apply mulpt|]; assumption).
  rewrite pmul_padd by (try apply mulpt; assumption). rewrite <- (pmul_mul p a b Hp Hirr Ha Hb Hb0) by assumption.
  rewrite (N.mul_comm r w). rewrite (pmul_eq p a b Hp Hirr Ha Hb Hb0 n (w * r) (2 * s)) by assumption.
  replace (2 * s) with (s + s) by lia. rewrite (pmul_add p a b Hp Hirr Ha Hb Hb0) by assumption.
  pose proof (mulpt s G HG) as A. pose proof (mulpt r Q HQ) as B. set (u := pmul c s G) in *. set (v := pmul c r Q) in *.
  apply (opp_iff p a b Hp Hirr Ha); [apply addpt; assumption|apply addpt; [assumption|apply negpt; apply addpt; [apply addpt; assumption|assumption]]|].
  rewrite <- assoc by first [assumption | apply addpt; assumption | apply negpt; apply addpt; [apply addpt; assumption|assumption]].
  rewrite (assoc u u v) by assumption. rewrite (comm (padd c u v) u) by (try apply addpt; assumption).
  apply (padd_pneg p a b Hp). apply addpt; [|apply addpt]; assumption.
Qed.
Lemma cancel_add P Q R : pt P -> pt Q -> pt R -> padd c P Q = padd c P R -> Q = R.
Proof.
  intros HP HQ HR E. rewrite (comm P Q), (comm P R) in E by assumption. apply (f_equal (fun X => padd c X (pneg P))) in E.
  rewrite !(padd_sub p a b Hp Hirr Ha Hb Hb0) in E by assumption. exact E.
Qed.
End Dist.

(** In terms of groups. *)
Lemma twin_sum c n r s w G Q : nonsing c -> curve_point c G -> curve_point c Q -> n <> 0 -> pmul c n G = None -> (w * r) mod n = (2 * s) mod n ->
  padd c (pmul c s G) (pmul c r (pneg (padd c (pmul c w G) Q))) = pneg (padd c (pmul c s G) (pmul c r Q)).
Proof. intros H HG HQ. open_c c H. rewrite !point_pt in * by assumption. apply twin_eq; assumption. Qed.
Lemma mul_sum c k P Q : nonsing c -> curve_point c P -> curve_point c Q -> pmul c k (padd c P Q) = padd c (pmul c k P) (pmul c k Q).
Proof. intros H HP HQ. open_c c H. rewrite !point_pt in * by assumption. apply pmul_padd; assumption. Qed.
Lemma mul_neg c k P : nonsing c -> curve_point c P -> pmul c k (pneg P) = pneg (pmul c k P).
Proof. intros H HP. open_c c H. rewrite !point_pt in * by assumption. apply pmul_pneg; assumption. Qed.
Lemma add_cancel c P Q R : nonsing c -> curve_point c P -> curve_point c Q -> curve_point c R -> padd c P Q = padd c P R -> Q = R.
Proof. intros H HP HQ HR. open_c c H. rewrite !point_pt in * by assumption. apply cancel_add; assumption. Qed.
Lemma two_with_x c x y y' : nonsing c -> curve_point c (Some (x, y)) -> curve_point c (Some (x, y')) -> y' = y \/ y' = N.lxor x y.
Proof. intros H P Q. open_c c H. rewrite !point_pt in * by assumption. eapply same_x; eassumption. Qed.
Lemma add_point c P Q : nonsing c -> curve_point c P -> curve_point c Q -> curve_point c (padd c P Q).
Proof. intros H P1 P2. apply (group_law c P Q None H P1 P2 I). Qed.
Lemma neg_point c P : nonsing c -> curve_point c P -> curve_point c (pneg P).
Proof. intros H P1. apply (group_law c P None None H P1 I I). Qed.

(** The inverse modulo a prime. *)
Lemma solve_mod n r v : prime (Z.of_N n) -> 1 <= r < n -> exists w, w < n /\ (w * r) mod n = v mod n.
Proof.
  intros Pr Hr. assert (Hn : n <> 0) by lia.
  assert (R : rel_prime (Z.of_N r) (Z.of_N n)).
  { apply rel_prime_sym, prime_rel_prime; [exact Pr|]. intros D. apply Z.divide_pos_le in D; lia. }
  destruct (rel_prime_bezout _ _ R) as [u k B]. exists (Z.to_N ((u * Z.of_N v) mod Z.of_N n)).
  pose proof (Z.mod_pos_bound (u * Z.of_N v) (Z.of_N n) ltac:(lia)) as L. split; [lia|].
  apply mod_div; [exact Hn|]. rewrite N2Z.inj_mul, Z2N.id by lia.
  pose proof (Z.div_mod (u * Z.of_N v) (Z.of_N n) ltac:(lia)) as D. set (q := ((u * Z.of_N v) / Z.of_N n)%Z) in *. set (m := ((u * Z.of_N v) mod Z.of_N n)%Z) in *.
  exists (- q * Z.of_N r - k * Z.of_N v)%Z. replace m with (u * Z.of_N v - Z.of_N n * q)%Z by lia.
  replace ((u * Z.of_N v - Z.of_N n * q) * Z.of_N r - Z.of_N v)%Z with ((u * Z.of_N r - 1) * Z.of_N v - Z.of_N n * q * Z.of_N r)%Z by lia.
  replace (u * Z.of_N r - 1)%Z with (- (k * Z.of_N n))%Z by lia. lia.
Qed.
(** A point of prime order is determined by a multiple of it. *)
Lemma mul_inj c n r P Q : nonsing c -> prime (Z.of_N n) -> 1 <= r < n -> curve_point c P -> curve_point c Q -> pmul c n P = None -> pmul c n Q = None ->
  pmul c r P = pmul c r Q -> P = Q.
Proof.
  intros NS Pr Hr HP HQ KP KQ E. destruct (solve_mod n r 1 Pr Hr) as (w & Hw & M). assert (Hn : n <> 0) by lia.
  assert (X : forall T, curve_point c T -> pmul c n T = None -> pmul c w (pmul c r T) = T).
  { intros T HT KT. destruct (multiples c w r T NS HT) as (_ & M1 & _ & <-). rewrite <- M1 at 2. clear - NS HT KT M Hn. open_c c NS. rewrite point_pt in HT by assumption.
    apply (pmul_eq p a b Hp Hirr Ha Hb Hb0 n); assumption. }
  rewrite <- (X P HP KP), <- (X Q HQ KQ), E. reflexivity.
Qed.

(** ** a signature without the private key *)
Lemma forge_valid g Q s r x y k : degree (c_p (g_curve g)) <= 8 * N.of_nat k -> well_formed g -> curve_point (g_curve g) Q -> 1 <= s < g_order g -> 1 <= r -> r < 2 ^ (N.size (g_order g) - 1) -> elem (c_p (g_curve g)) r ->
  padd (g_curve g) (pmul (g_curve g) s (g_gen g)) (pmul (g_curve g) r Q) = Some (x, y) -> x <> 0 ->
  exists digest, bytesn k digest /\ digest <> [] /\ valid_signature g Q digest s r.
Proof.
  intros Hdk W HQ Hs Hr Hr2 Er E Hx. pose proof (wf_nonsing g W) as NS. assert (Hirr : irreducible (c_p (g_curve g))) by apply NS.
  pose proof (wf_p g W) as Hp. pose proof (wf_n g W) as Hn. set (p := c_p (g_curve g)) in *. set (m := degree p) in *. set (n := g_order g) in *.
  assert (P : curve_point (g_curve g) (Some (x, y))).
  { rewrite <- E. apply add_point; [exact NS| |]; apply pmul_point; try assumption. apply gen_point, W. }
  assert (Ex : elem p x) by apply P.
  destruct (ginv_ok p Hp Hirr x) as (z & _ & Ez & Xz); [intros X; apply Hx; apply (elem_eqm0 p Hp); assumption|].
  set (h := gmul p r z). assert (Eh : elem p h) by (apply gmul_elem; exact Hp). pose proof (eqm_equiv p) as EQ.
  assert (Hxr : gmul p h x = r).
  { apply (elem_eq p Hp); [apply gmul_elem; exact Hp|exact Er|]. transitivity (clmul h x); [apply gmul_eqm; exact Hp|].
    transitivity (clmul (clmul r z) x); [apply (clmul_eqm p Hp); [apply gmul_eqm; exact Hp|reflexivity]|].
    rewrite <- clmul_assoc, (clmul_comm z x). transitivity (clmul r 1); [apply (clmul_eqm p Hp); [reflexivity|exact Xz]|]. rewrite clmul_comm, clmul_1_l. reflexivity. }
  assert (Hh : h <> 0).
  { intros Z. rewrite Z in Hxr. unfold gmul in Hxr. change (pmod 0 p) with 0 in Hxr. change (clmul 0 x) with 0 in Hxr. change (pmod 0 p) with 0 in Hxr. lia. }
  assert (Hk : h < 256 ^ N.of_nat k).
  { change 256 with (2 ^ 8). rewrite <- N.pow_mul_r. unfold elem in Eh. fold m in Eh. eapply N.lt_le_trans; [exact Eh|].
    apply N.pow_le_mono_r; [lia|exact Hdk]. }
  assert (LV : le_val (le_bytes k h) = h) by (apply le_val_le_bytes_small; exact Hk).
  exists (le_bytes k h). split; [apply le_bytes_bytesn|]. split; [intros Z; rewrite Z in LV; cbn in LV; lia|].
  split; [exact Hs|]. split.
  - split; [exact Hr|]. fold n. eapply N.lt_le_trans; [exact Hr2|]. assert (n = int_of_field n n + 2 ^ (N.size n - 1) * (n / 2 ^ (N.size n - 1))).
    { unfold int_of_field. pose proof (N.div_mod n (2 ^ (N.size n - 1)) ltac:(apply N.pow_nonzero; lia)). lia. }
    rewrite N.size_log2 by exact Hn. replace (N.succ (N.log2 n) - 1) with (N.log2 n) by lia. apply N.log2_spec. lia.
  - exists x, y. split; [exact E|]. fold p m n. unfold field_of_digest. rewrite LV. destruct (N.eqb_spec h 0); [contradiction|].
    rewrite N.mod_small by exact Eh. rewrite Hxr. unfold int_of_field. apply N.mod_small. exact Hr2.
Qed.
Lemma accepts g d Q t s r : well_formed g -> t <> [] -> valid_signature g Q t s r ->
  do_verify (ECKEY (Some (Binary g)) d (Some Q)) t (be_bytes (N.to_nat (num_bytes (g_order g))) s ++ be_bytes (N.to_nat (num_bytes (g_order g))) r) = true.
Proof.
  intros W Ht V. pose proof (wf_p g W) as Hp. pose proof (wf_n g W) as Hn. apply verify_iff; [assumption|assumption|]. cbv zeta. split; [exact Ht|].
  pose proof (halves_sig (g_order g) s r) as HS. unfold sig_bytes in HS. rewrite HS by apply V. exact V.
Qed.
Lemma nonzero_x g e x y : well_formed g -> prime (Z.of_N (g_order g)) -> pmul (g_curve g) e (g_gen g) = Some (x, y) -> x <> 0.
Proof.
  intros W Pr E ->. pose proof (wf_nonsing g W) as NS. pose proof (mul_point g W Pr e) as P. rewrite E in P.
  assert (Z : pmul (g_curve g) (e + e) (g_gen g) = None).
  { rewrite (add_mul g W). rewrite E. assert (T : pneg (Some (0, y)) = Some (0, y)) by (unfold pneg; rewrite N.lxor_0_l; reflexivity).
    rewrite <- T at 2. apply (group_law _ _ None None NS P I I). }
  apply (zero_divides g W Pr) in Z. assert (O : N.odd (g_order g) = true) by apply W.
  assert (D : (Z.of_N (g_order g) | 2 * Z.of_N e)%Z) by (destruct Z as [q Hq]; exists (Z.of_N q); lia).
  apply prime_mult in D; [|exact Pr]. destruct D as [D|D].
  - apply Z.divide_pos_le in D; [|lia]. assert (g_order g = 2) by (pose proof (prime_ge_2 _ Pr); lia). rewrite H in O. discriminate.
  - destruct D as [q Hq]. assert (X : pmul (g_curve g) e (g_gen g) = None); [|rewrite E in X; discriminate].
    replace e with (Z.to_N q * g_order g) by (apply N2Z.inj; rewrite N2Z.inj_mul; destruct (Z.le_gt_cases 0 q); [rewrite Z2N.id by assumption; lia|pose proof (prime_ge_2 _ Pr); nia]).
    apply (mul_period g W).
Qed.
Lemma sum_is g d Q s r : well_formed g -> key_pair g d Q -> let n := g_order g in
  padd (g_curve g) (pmul (g_curve g) s (g_gen g)) (pmul (g_curve g) r Q) = pmul (g_curve g) (s + (n - (d * r) mod n)) (g_gen g).
Proof.
  intros W K n. pose proof (wf_n g W) as Hn. fold n in Hn. rewrite K. pose proof (wf_nonsing _ W) as NS. pose proof (gen_point g W) as GP. pose proof (killed g W) as KI. fold n in KI.
  assert (M : s mod n = (s + (n - (d * r) mod n) + d * r) mod n).
  { apply mod_div; [exact Hn|]. pose proof (N.mod_lt (d * r) n Hn). exists (- Z.of_N (d * r / n) - 1)%Z. pose proof (N.div_mod (d * r) n Hn). nia. }
  revert M. generalize (s + (n - (d * r) mod n)). intros e M. clear W K. revert NS GP KI. destruct g as [c G n' h]. cbn [g_curve g_gen g_order] in *. intros NS GP KI.
  open_c c NS. rewrite point_pt in GP by assumption. apply (verify_eq p a b Hp Hirr Ha Hb Hb0 n); assumption.
Qed.
Lemma forge_pair g d Q s r k : degree (c_p (g_curve g)) <= 8 * N.of_nat k -> well_formed g -> prime (Z.of_N (g_order g)) -> key_pair g d Q -> N.size (g_order g) - 1 <= degree (c_p (g_curve g)) ->
  1 <= s < g_order g -> 1 <= r -> r < 2 ^ (N.size (g_order g) - 1) -> s <> (d * r) mod g_order g ->
  exists digest, bytesn k digest /\ forall d0,
    do_verify (ECKEY (Some (Binary g)) d0 (Some Q)) digest
      (be_bytes (N.to_nat (num_bytes (g_order g))) s ++ be_bytes (N.to_nat (num_bytes (g_order g))) r) = true.
Proof.
  intros Hdk W Pr K Sz Hs Hr Hr2 Hne. pose proof (wf_n g W) as Hn. pose proof (sum_is g d Q s r W K) as E. cbv zeta in E.
  set (e := s + (g_order g - (d * r) mod g_order g)) in *.
  destruct (pmul (g_curve g) e (g_gen g)) as [[x y]|] eqn:Ee.
  - destruct (forge_valid g Q s r x y k Hdk W) as (t & Ht & Hne' & V); try assumption.
    + rewrite K. apply neg_point; [apply wf_nonsing, W|]. apply (mul_point g W Pr).
    + unfold elem. eapply N.lt_le_trans; [exact Hr2|]. apply N.pow_le_mono_r; [lia|exact Sz].
    + eapply nonzero_x; eassumption.
    + exists t. split; [exact Ht|]. intros d0. apply accepts; assumption.
  - exfalso. apply (zero_divides g W Pr) in Ee. destruct Ee as [q Hq]. pose proof (N.mod_lt (d * r) (g_order g) Hn) as L. unfold e in Hq.
    set (v := (d * r) mod g_order g) in *. assert (q = 1) by nia. subst q. lia.
Qed.
Lemma std_size nid g : group_from_nid nid = Some g -> N.size (g_order g) - 1 <= degree (c_p (g_curve g)).
Proof.
  intros H. apply std_of_nid in H as (i & Hi & _ & -> & _). revert i Hi.
  assert (A : forallb (fun i => N.size (g_order (std i)) - 1 <=? degree (c_p (g_curve (std i)))) (seq 0 10) = true) by (vm_compute; reflexivity).
  intros i Hi. rewrite forallb_forall in A. apply N.leb_le, A, in_seq. lia.
Qed.
Lemma std_wf nid g : group_from_nid nid = Some g -> well_formed g.
Proof. intros H. apply std_of_nid in H as (i & _ & _ & _ & W). exact W. Qed.
Lemma forge_std nid g d Q s r k : group_from_nid nid = Some g -> degree (c_p (g_curve g)) <= 8 * N.of_nat k -> key_pair g d Q ->
  1 <= s < g_order g -> 1 <= r -> r < 2 ^ (N.size (g_order g) - 1) -> s <> (d * r) mod g_order g ->
  exists digest, bytesn k digest /\ forall d0,
    do_verify (ECKEY (Some (Binary g)) d0 (Some Q)) digest
      (be_bytes (N.to_nat (num_bytes (g_order g))) s ++ be_bytes (N.to_nat (num_bytes (g_order g))) r) = true.
Proof. intros H Hdk K. exact (forge_pair g d Q s r k Hdk (std_wf nid g H) (nid_prime nid g H) K (std_size nid g H)). Qed.

(** Who knows the multiplier of the point knows the private key. *)
Lemma knows g d Q t sig e : well_formed g -> prime (Z.of_N (g_order g)) -> key_pair g d Q -> d < g_order g ->
  do_verify (ECKEY (Some (Binary g)) None (Some Q)) t sig = true ->
  let n := g_order g in let half := (length sig / 2)%nat in
  let s := be_val (firstn half sig) in let r := be_val (firstn half (skipn half sig)) in
  padd (g_curve g) (pmul (g_curve g) s (g_gen g)) (pmul (g_curve g) r Q) = pmul (g_curve g) e (g_gen g) ->
  forall d', d' < n -> (s = (e + d' * r) mod n <-> d' = d).
Proof.
  intros W Pr K Hd V n half s r E d' Hd'. pose proof (wf_p g W) as Hp. pose proof (wf_n g W) as Hn. fold n in Hn. apply verify_iff in V; [|assumption|assumption].
  destruct V as [_ V]. change (valid_signature g Q t s r) in V. destruct V as (Hs & Hr & _). fold n in Hs, Hr.
  apply (known_nonce n e d s r d'); try assumption. rewrite (sum_is g d Q s r W K) in E. fold n in E.
  pose proof (N.mod_lt (d * r) n Hn) as L. pose proof (N.mod_lt e n Hn) as Le.
  pose proof (wf_nonsing _ W) as NS. pose proof (gen_point g W) as GP.
  set (u := s + (n - (d * r) mod n)) in *.
  assert (Z : pmul (g_curve g) (u + (n - e mod n)) (g_gen g) = None).
  { rewrite (add_mul g W), E. rewrite <- (add_mul g W). replace (e + (n - e mod n)) with ((e / n + 1) * n) by (pose proof (N.div_mod e n Hn); lia). apply (mul_period g W). }
  apply (zero_divides g W Pr) in Z. fold n in Z. destruct Z as [q Hq].
  rewrite <- (N.mod_small s n) by apply Hs. apply mod_div; [exact Hn|].
  pose proof (N.div_mod (d * r) n Hn). pose proof (N.div_mod e n Hn). unfold u in Hq.
  exists (Z.of_N q - 2 - Z.of_N (e / n) - Z.of_N (d * r / n))%Z. nia.
Qed.

(** ** several keys *)
Lemma twin g Q t sig : well_formed g -> prime (Z.of_N (g_order g)) -> curve_point (g_curve g) Q -> pmul (g_curve g) (g_order g) Q = None ->
  do_verify (ECKEY (Some (Binary g)) None (Some Q)) t sig = true ->
  let n := g_order g in let half := (length sig / 2)%nat in
  let s := be_val (firstn half sig) in let r := be_val (firstn half (skipn half sig)) in
  exists w, w < n /\ (w * r) mod n = (2 * s) mod n /\
    let Q' := pneg (padd (g_curve g) (pmul (g_curve g) w (g_gen g)) Q) in
    Q' <> Q /\ curve_point (g_curve g) Q' /\ pmul (g_curve g) n Q' = None /\
    (forall d, d < n -> key_pair g d Q -> key_pair g (w + (n - d)) Q') /\
    do_verify (ECKEY (Some (Binary g)) None (Some Q')) t sig = true.
Proof.
  intros W Pr HQ KQ V n half s r. pose proof (wf_p g W) as Hp. pose proof (wf_n g W) as Hn. fold n in Hn. apply verify_iff in V; [|assumption|assumption].
  destruct V as [Ht V]. change (valid_signature g Q t s r) in V. destruct V as (Hs & Hr & x & y & E & Ei). fold n in Hs, Hr, Ei.
  destruct (solve_mod n r (2 * s) Pr Hr) as (w & Hw & M). exists w. split; [exact Hw|]. split; [exact M|]. intros Q'.
  pose proof (wf_nonsing _ W) as NS. pose proof (gen_point g W) as GP. pose proof (killed g W) as KI. fold n in KI, KQ.
  assert (S : curve_point (g_curve g) (padd (g_curve g) (pmul (g_curve g) w (g_gen g)) Q)) by (apply add_point; [exact NS|apply pmul_point; assumption|exact HQ]).
  pose proof (twin_sum (g_curve g) n r s w (g_gen g) Q NS GP HQ Hn KI M) as T. fold Q' in T. rewrite E in T.
  assert (Hx : x <> 0).
  { intros ->. destruct Hr as [Hr _]. rewrite gmul_zero_r in Ei. assert (Z : gmul (c_p (g_curve g)) 0 0 = 0) by reflexivity. rewrite Z in Ei.
    unfold int_of_field in Ei. rewrite N.mod_0_l in Ei by (apply N.pow_nonzero; lia). lia. }
  split.
  - intros X. rewrite X, E in T. unfold pneg in T. injection T as T. apply Hx. rewrite <- (N.lxor_0_r y) in T at 1. rewrite N.lxor_comm in T. apply N.lxor_eq. 
    rewrite N.lxor_0_r. apply (f_equal (fun v => N.lxor v y)) in T. rewrite N.lxor_0_l, N.lxor_nilpotent, N.lxor_assoc, N.lxor_nilpotent, N.lxor_0_r in T. symmetry. exact T.
  - split; [apply neg_point; assumption|]. split.
    { unfold Q'. rewrite mul_neg by assumption. rewrite mul_sum; [|exact NS|apply pmul_point; assumption|exact HQ]. rewrite KQ.
      destruct (multiples (g_curve g) n w (g_gen g) NS GP) as (_ & _ & _ & <-). rewrite N.mul_comm. unfold n. rewrite (mul_period g W). reflexivity. }
    split.
    { intros d Hd K. unfold Q', key_pair. f_equal. rewrite (add_mul g W). f_equal. unfold n. rewrite (pmul_minus (g_curve g) (g_order g) d (g_gen g) NS GP (killed g W)) by (fold n; lia). exact K. }
    apply verify_iff; [assumption|assumption|]. split; [exact Ht|]. change (valid_signature g Q' t s r). split; [exact Hs|]. split; [exact Hr|].
    exists x, (N.lxor x y). split; [exact T|exact Ei].
Qed.

Lemma few_keys g t sig Qs : well_formed g -> prime (Z.of_N (g_order g)) ->
  Forall (fun Q => curve_point (g_curve g) Q /\ pmul (g_curve g) (g_order g) Q = None) Qs ->
  Forall (fun Q => do_verify (ECKEY (Some (Binary g)) None (Some Q)) t sig = true) Qs -> NoDup Qs ->
  N.of_nat (length Qs) <= 2 * 2 ^ (degree (c_p (g_curve g)) - (N.size (g_order g) - 1)).
Proof.
  intros W Pr HQ HV ND. pose proof (wf_p g W) as Hp. pose proof (wf_n g W) as Hn. pose proof (wf_nonsing _ W) as NS. pose proof (gen_point g W) as GP.
  assert (Hirr : irreducible (c_p (g_curve g))) by apply NS.
  set (p := c_p (g_curve g)) in *. set (n := g_order g) in *. set (m := degree p) in *. set (c := g_curve g) in *.
  set (half := (length sig / 2)%nat). set (s := be_val (firstn half sig)). set (r := be_val (firstn half (skipn half sig))).
  set (B := 2 ^ (N.size n - 1)). assert (HB : B <> 0) by (apply N.pow_nonzero; lia).
  set (h := field_of_digest m t). set (R := fun Q => padd c (pmul c s (g_gen g)) (pmul c r Q)).
  set (f := fun Q => match R Q with None => 0 | Some (x, y) => 2 * (gmul p h x / B) + (if y <? N.lxor x y then 0 else 1) end).
  set (K := 2 ^ (m - (N.size n - 1))).
  assert (A : forall Q, In Q Qs -> curve_point c Q /\ pmul c n Q = None /\ 1 <= r < n /\ exists x y, R Q = Some (x, y) /\ curve_point c (Some (x, y)) /\ x <> 0 /\ h <> 0 /\
    gmul p h x = B * (gmul p h x / B) + r /\ gmul p h x / B < K).
  { intros Q Hi. rewrite Forall_forall in HQ, HV. destruct (HQ Q Hi) as [Q1 Q2]. split; [exact Q1|]. split; [exact Q2|].
    pose proof (HV Q Hi) as V. apply verify_iff in V; [|exact Hp|exact Hn]. destruct V as [Ht V]. change (valid_signature g Q t s r) in V. destruct V as (Hs & Hr & x & y & E & Ei).
    split; [exact Hr|]. exists x, y. split; [exact E|].
    assert (P : curve_point c (Some (x, y))) by (rewrite <- E; apply add_point; [exact NS| |]; apply pmul_point; assumption). split; [exact P|].
    fold c p n m h in Ei. split.
    { intros ->. rewrite gmul_zero_r in Ei. assert (Z : gmul p 0 0 = 0) by reflexivity. rewrite Z in Ei. unfold int_of_field in Ei. rewrite N.mod_0_l in Ei by exact HB. lia. }
    split.
    { intros Z. rewrite Z in Ei. unfold gmul in Ei. change (clmul 0 x) with 0 in Ei. change (pmod 0 p) with 0 in Ei. unfold int_of_field in Ei. rewrite N.mod_0_l in Ei by exact HB. lia. }
    unfold int_of_field in Ei. fold B in Ei. split; [pose proof (N.div_mod (gmul p h x) B HB); congruence|].
    apply N.div_lt_upper_bound; [exact HB|]. unfold B, K. rewrite <- N.pow_add_r. pose proof (gmul_elem p Hp h x) as L. unfold elem in L. fold m in L.
    eapply N.lt_le_trans; [exact L|]. apply N.pow_le_mono_r; lia. }
  assert (Inj : forall Q Q', In Q Qs -> In Q' Qs -> f Q = f Q' -> Q = Q').
  { intros Q Q' H1 H2 Ef. destruct (A Q H1) as (Q1 & Q2 & Hr & x & y & E & P & Hx & Hh & G1 & _). destruct (A Q' H2) as (Q1' & Q2' & _ & x' & y' & E' & P' & Hx' & _ & G1' & _).
    unfold f in Ef. rewrite E, E' in Ef.
    assert (Eq : gmul p h x / B = gmul p h x' / B /\ (y <? N.lxor x y) = (y' <? N.lxor x' y')).
    { revert Ef. generalize (gmul p h x / B) (gmul p h x' / B). intros u v. destruct (y <? N.lxor x y), (y' <? N.lxor x' y'); intros Ef; split; try reflexivity; lia. }
    destruct Eq as [Eq Eb]. assert (Ev : gmul p h x = gmul p h x') by (rewrite G1, G1', Eq; reflexivity).
    assert (Exx : x = x').
    { apply (elem_eq p Hp); [apply P|apply P'|]. apply (cancel p Hp Hirr h); [apply (nz p Hp); [apply (field_of_digest_elem p t Hp)|exact Hh]|].
      pose proof (eqm_equiv p). transitivity (gmul p h x); [symmetry; apply gmul_eqm; exact Hp|]. rewrite Ev. apply gmul_eqm. exact Hp. }
    subst x'. assert (Ey : y' = y).
    { destruct (two_with_x c x y y' NS P P') as [->| ->]; [reflexivity|]. exfalso. rewrite <- N.lxor_assoc, N.lxor_nilpotent, N.lxor_0_l in Eb.
      assert (y <> N.lxor x y) by (intros Z; apply Hx; apply (f_equal (fun v => N.lxor v y)) in Z; rewrite N.lxor_nilpotent, N.lxor_assoc, N.lxor_nilpotent, N.lxor_0_r in Z; symmetry; exact Z).
      destruct (N.ltb_spec y (N.lxor x y)), (N.ltb_spec (N.lxor x y) y); try discriminate; lia. }
    subst y'. apply (mul_inj c n r); try assumption.
    apply (add_cancel c (pmul c s (g_gen g))); [exact NS|apply pmul_point; assumption|apply pmul_point; assumption|apply pmul_point; assumption|]. unfold R in E, E'. congruence. }
  assert (Bd : forall Q, In Q Qs -> f Q < 2 * K).
  { intros Q H1. destruct (A Q H1) as (_ & _ & _ & x & y & E & _ & _ & _ & _ & L). unfold f. rewrite E. revert L. generalize (gmul p h x / B). intros u L. destruct (y <? N.lxor x y); lia. }
  clearbody K f. clear - ND Inj Bd. pose proof (nodup_map_in f Qs Inj ND) as ND'.
  apply (NoDup_incl_length (l' := map N.of_nat (seq 0 (N.to_nat (2 * K))))) in ND'.
  - rewrite !map_length, seq_length in ND'. lia.
  - intros w Hw. apply in_map_iff in Hw as (Q & <- & HQ). specialize (Bd Q HQ). apply in_map_iff. exists (N.to_nat (f Q)). split; [apply N2Nat.id|]. apply in_seq. lia.
Qed.
Lemma std_few_keys nid g t sig Qs : group_from_nid nid = Some g ->
  Forall (fun Q => curve_point (g_curve g) Q /\ pmul (g_curve g) (g_order g) Q = None) Qs ->
  Forall (fun Q => do_verify (ECKEY (Some (Binary g)) None (Some Q)) t sig = true) Qs -> NoDup Qs -> (length Qs <= 8)%nat.
Proof.
  intros H HQ HV ND. pose proof (few_keys g t sig Qs (std_wf nid g H) (nid_prime nid g H) HQ HV ND) as L. pose proof (std_excess nid g H) as X.
  assert (2 ^ (degree (c_p (g_curve g)) - (N.size (g_order g) - 1)) <= 2 ^ 2) by (apply N.pow_le_mono_r; [lia|exact X]). change (2 ^ 2) with 4 in H0. lia.
Qed.
