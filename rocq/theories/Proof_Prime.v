(** Primality certificates: Fermat's theorem, Pocklington's criterion and a checker. *)
From Coq Require Import List ZArith Znumtheory Lia Permutation Bool Hexadecimal.
From Verif Require Import Proof_Digits.
Import ListNotations.
Open Scope Z_scope.

Definition cong (n a b : Z) : Prop := (n | a - b).
Lemma cong_refl n a : cong n a a. Proof. unfold cong. rewrite Z.sub_diag. apply Z.divide_0_r. Qed.
Lemma cong_sym n a b : cong n a b -> cong n b a.
Proof. unfold cong. intros H. replace (b - a) with (- (a - b)) by ring. now apply Z.divide_opp_r. Qed.
Lemma cong_trans n a b c : cong n a b -> cong n b c -> cong n a c.
Proof. unfold cong. intros H K. replace (a - c) with ((a - b) + (b - c)) by ring. now apply Z.divide_add_r. Qed.
Lemma cong_mul n a b c d : cong n a b -> cong n c d -> cong n (a * c) (b * d).
Proof. unfold cong. intros H K. replace (a * c - b * d) with ((a - b) * c + b * (c - d)) by ring. apply Z.divide_add_r; [now apply Z.divide_mul_l|now apply Z.divide_mul_r]. Qed.
Lemma cong_pow n a b k : 0 <= k -> cong n a b -> cong n (a ^ k) (b ^ k).
Proof. intros Hk H. pattern k. apply natlike_ind; [rewrite !Z.pow_0_r; apply cong_refl| |exact Hk]. intros x Hx IH. rewrite !Z.pow_succ_r by exact Hx. now apply cong_mul. Qed.
Lemma cong_mod n a : n <> 0 -> cong n (a mod n) a.
Proof. intros H. unfold cong. exists (- (a / n)). rewrite (Z.mod_eq a n H). ring. Qed.
Lemma cong_div n m a b : (m | n) -> cong n a b -> cong m a b.
Proof. unfold cong. intros. eapply Z.divide_trans; eassumption. Qed.

(** Fermat: multiplication by a permutes the residues. *)
Definition residues (p : Z) : list Z := map Z.of_nat (seq 1 (Z.to_nat (p - 1))).
Lemma in_residues p x : In x (residues p) <-> 1 <= x < p.
Proof.
  unfold residues. rewrite in_map_iff. split.
  - intros (k & <- & H). apply in_seq in H. lia.
  - intros H. exists (Z.to_nat x). split; [lia|]. apply in_seq. lia.
Qed.
Lemma nodup_residues p : NoDup (residues p).
Proof. unfold residues. apply FinFun.Injective_map_NoDup; [intros x y; apply Nat2Z.inj|apply seq_NoDup]. Qed.
Definition prod (l : list Z) : Z := fold_right Z.mul 1 l.
Lemma prod_perm l m : Permutation l m -> prod l = prod m.
Proof. unfold prod. induction 1; cbn; [reflexivity|now rewrite IHPermutation|ring|congruence]. Qed.
Lemma prod_map n a l : n <> 0 -> cong n (prod (map (fun x => (a * x) mod n) l)) (a ^ Z.of_nat (length l) * prod l).
Proof.
  intros Hn. induction l as [|x t IH]; [cbn; apply cong_refl|].
  cbn [map prod fold_right length]. rewrite Nat2Z.inj_succ, Z.pow_succ_r by lia.
  replace (a * a ^ Z.of_nat (length t) * (x * fold_right Z.mul 1 t)) with (a * x * (a ^ Z.of_nat (length t) * prod t)) by (unfold prod; ring).
  apply cong_mul; [now apply cong_mod|exact IH].
Qed.
Lemma prod_coprime p l : prime p -> (forall x, In x l -> 1 <= x < p) -> rel_prime p (prod l).
Proof.
  intros P. induction l as [|x t IH]; intros H; [cbn; apply rel_prime_sym, rel_prime_1|].
  cbn. apply rel_prime_mult; [apply prime_rel_prime; [exact P|]|apply IH; intros; apply H; now right].
  intros D. apply Z.divide_pos_le in D; [|specialize (H x (or_introl eq_refl)); lia]. specialize (H x (or_introl eq_refl)); lia.
Qed.
Lemma fermat p a : prime p -> ~ (p | a) -> cong p (a ^ (p - 1)) 1.
Proof.
  intros P H. assert (Hp := prime_ge_2 p P).
  assert (E : Permutation (map (fun x => (a * x) mod p) (residues p)) (residues p)).
  { apply NoDup_Permutation_bis.
    - assert (G : forall l, NoDup l -> (forall x, In x l -> 1 <= x < p) -> NoDup (map (fun x => (a * x) mod p) l)).
      { induction l as [|x t IH]; intros N B; [constructor|]. inversion_clear N as [|? ? N1 N2]. cbn. constructor; [|apply IH; [exact N2|intros; apply B; now right]].
        intros J. apply in_map_iff in J. destruct J as (y & J1 & J2). apply N1.
        enough (x = y) by now subst. assert (Bx := B x (or_introl eq_refl)). assert (By := B y (or_intror J2)).
        assert (D : (p | a * (y - x))). { replace (a * (y - x)) with (a * y - a * x) by ring. apply Z.mod_divide; [lia|]. rewrite Zminus_mod, J1, Z.sub_diag. apply Zmod_0_l. }
        apply prime_mult in D; [|exact P]. destruct D as [D | D]; [contradiction|].
        destruct D as (k & D). assert (k = 0) by nia. nia. }
      apply G; [apply nodup_residues|intros x; apply in_residues].
    - rewrite map_length. lia.
    - intros x J. apply in_map_iff in J. destruct J as (y & <- & J). apply in_residues in J. apply in_residues.
      assert (B := Z.mod_pos_bound (a * y) p ltac:(lia)). enough ((a * y) mod p <> 0) by lia. intros Z0. apply Z.mod_divide in Z0; [|lia].
      apply prime_mult in Z0; [|exact P]. destruct Z0 as [D | D]; [contradiction|]. apply Z.divide_pos_le in D; lia. }
  assert (C := prod_map p a (residues p) ltac:(lia)). rewrite (prod_perm _ _ E) in C.
  assert (Ln : Z.of_nat (length (residues p)) = p - 1) by (unfold residues; rewrite map_length, seq_length; lia).
  rewrite Ln in C. unfold cong in C. replace (prod (residues p) - a ^ (p - 1) * prod (residues p)) with (prod (residues p) * - (a ^ (p - 1) - 1)) in C by ring.
  apply Gauss in C; [|apply prod_coprime; [exact P|intros x; apply in_residues]]. unfold cong. apply Z.divide_opp_r. exact C.
Qed.

(** An element of order q modulo every divisor of n. *)
Lemma order_divides p q b : prime p -> prime q -> cong p (b ^ q) 1 -> ~ cong p b 1 -> (q | p - 1).
Proof.
  intros P Q B1 B2. assert (Hp := prime_ge_2 p P). assert (Hq := prime_ge_2 q Q).
  destruct (Zdivide_dec q (p - 1)) as [D | D]; [exact D|exfalso]. apply B2.
  assert (Nb : ~ (p | b)).
  { intros J. apply (prime_ge_2 p) in P as P2. assert (K : (p | b ^ q)). { replace q with (Z.succ (q - 1)) by lia. rewrite Z.pow_succ_r by lia. now apply Z.divide_mul_l. }
    unfold cong in B1. assert ((p | 1)). { replace 1 with (b ^ q - (b ^ q - 1)) by ring. now apply Z.divide_sub_r. } apply Z.divide_pos_le in H; lia. }
  assert (Fm := fermat p b P Nb).
  assert (R : rel_prime q (p - 1)) by (apply prime_rel_prime; assumption).
  apply rel_prime_bezout in R. destruct R as [u v E].
  (* u q + v (p - 1) = 1; make the exponents non-negative *)
  assert (G : forall x, 0 <= x -> cong p (b ^ (q * x)) 1) by (intros x Hx; rewrite Z.pow_mul_r by lia; eapply cong_trans; [apply cong_pow; [lia|exact B1]|rewrite Z.pow_1_l by lia; apply cong_refl]).
  assert (G' : forall x, 0 <= x -> cong p (b ^ ((p - 1) * x)) 1) by (intros x Hx; rewrite Z.pow_mul_r by lia; eapply cong_trans; [apply cong_pow; [lia|exact Fm]|rewrite Z.pow_1_l by lia; apply cong_refl]).
  (* q U = 1 + (p - 1) V with U, V >= 0 *)
  assert (J : exists x y, 0 <= x /\ 0 <= y /\ q * x = 1 + (p - 1) * y).
  { exists (u + (p - 1) * (Z.abs u + Z.abs v)), (q * (Z.abs u + Z.abs v) - v). repeat split; nia. }
  destruct J as (x & y & Hx & Hy & EJ). assert (A := G x Hx). rewrite EJ, Z.pow_add_r, Z.pow_1_r in A by nia.
  apply cong_sym in A. eapply cong_trans; [|apply cong_sym; exact A].
  rewrite <- (Z.mul_1_r b) at 1. apply cong_mul; [apply cong_refl|apply cong_sym, G', Hy].
Qed.

(** Pocklington, with the elements of prime orders given. *)
Definition witness (n q : Z) : Prop := prime q /\ exists b i, cong n (b ^ q) 1 /\ cong n ((b - 1) * i) 1.
Lemma witness_divides n q p : witness n q -> prime p -> (p | n) -> (q | p - 1).
Proof.
  intros (Q & b & i & B & C) P D. apply (order_divides p q b P Q); [now apply (cong_div n)|].
  intros J. assert (K := cong_div n p _ _ D C). unfold cong in J, K. assert (H : (p | 1)). { replace 1 with ((b - 1) * i - ((b - 1) * i - 1)) by ring. apply Z.divide_sub_r; [now apply Z.divide_mul_l|exact K]. }
  apply prime_ge_2 in P. apply Z.divide_pos_le in H; lia.
Qed.
Lemma smallest_divisor n : 1 < n -> exists p, prime p /\ (p | n) /\ (~ prime n -> p * p <= n).
Proof.
  intros Hn. assert (H0 : 0 <= n) by lia. revert Hn. pattern n. apply Z_lt_induction; [|exact H0]. clear n H0. intros n IH Hn.
  destruct (prime_dec n) as [P | P]; [exists n; split; [exact P|split; [apply Z.divide_refl|tauto]]|].
  destruct (not_prime_divide n Hn P) as (m & Hm & (k & Dm)).
  assert (Hk : 1 < k < n) by nia.
  destruct (Z_le_gt_dec m k).
  - destruct (IH m ltac:(lia) ltac:(lia)) as (p & A & B & C). exists p. split; [exact A|]. split; [rewrite Dm; now apply Z.divide_mul_r|]. intros _. apply Z.divide_pos_le in B; [|lia]. assert (0 < p) by (apply prime_ge_2 in A; lia). nia.
  - destruct (IH k ltac:(lia) ltac:(lia)) as (p & A & B & C). exists p. split; [exact A|]. split; [rewrite Dm; now apply Z.divide_mul_l|]. intros _. apply Z.divide_pos_le in B; [|lia]. assert (0 < p) by (apply prime_ge_2 in A; lia). nia.
Qed.
Lemma prime_eq p q : prime p -> prime q -> (p | q) -> p = q.
Proof. intros P Q D. apply prime_divisors in D; [|exact Q]. apply prime_ge_2 in P. apply prime_ge_2 in Q. lia. Qed.
Lemma coprime_prod q l : prime q -> (forall x, In x l -> prime x) -> ~ In q l -> rel_prime q (prod l).
Proof.
  intros Q. induction l as [|x t IH]; intros H N; [cbn; apply rel_prime_sym, rel_prime_1|]. cbn. apply rel_prime_mult.
  - apply prime_rel_prime; [exact Q|]. intros D. apply prime_eq in D; [|exact Q|apply H; now left]. apply N. now left.
  - apply IH; [intros; apply H; now right|]. intros J. apply N. now right.
Qed.
Lemma prod_divides m l : NoDup l -> (forall x, In x l -> prime x /\ (x | m)) -> (prod l | m).
Proof.
  induction l as [|q t IH]; intros ND H; [apply Z.divide_1_l|]. inversion_clear ND as [|? ? N1 N2].
  destruct (IH N2 (fun x J => H x (or_intror J))) as (k & A). destruct (H q (or_introl eq_refl)) as (Q & B).
  rewrite A, Z.mul_comm in B. apply Gauss in B; [|apply coprime_prod; [exact Q|intros x J; apply H; now right|exact N1]].
  cbn. fold (prod t). rewrite A. now apply Z.mul_divide_mono_r.
Qed.
Lemma pocklington n qs : 1 < n -> NoDup qs -> (forall q, In q qs -> witness n q) -> n < (prod qs + 1) ^ 2 -> prime n.
Proof.
  intros Hn ND W L. destruct (prime_dec n) as [P | P]; [exact P|exfalso].
  destruct (smallest_divisor n Hn) as (p & Pp & D & S). specialize (S P).
  assert (G : (prod qs | p - 1)) by (apply prod_divides; [exact ND|intros q J; split; [apply (W q J)|now apply (witness_divides n); [apply W|..]]]).
  assert (Hp := prime_ge_2 p Pp). apply Z.divide_pos_le in G; [|lia].
  assert (1 <= prod qs). { enough (0 < prod qs) by lia. clear -W. induction qs as [|q t IH]; [cbn; lia|]. cbn. fold (prod t). assert (A := IH (fun x J => W x (or_intror J))). destruct (W q (or_introl eq_refl)) as (Q & _). apply prime_ge_2 in Q. nia. }
  nia.
Qed.

(** Powers: a result is squared four times and multiplied with the power given by a hexadecimal
    digit; each step is a pair of a quotient and a remainder. *)
Definition qr := (N * N)%type.
Definition step (n a b : dg) (s : qr) : bool := deqb (dmul a b) (dadd false (dmul (ofN (fst s)) n) (ofN (snd s))).
Fixpoint table (n b : dg) (l : list qr) (cur : dg) : bool :=
  match l with [] => true | s :: t => step n cur b s && table n b t (ofN (snd s)) end.
Fixpoint power (n : dg) (T : list dg) (l : list (nat * (qr * qr * qr * qr * qr))) (cur : dg) : bool :=
  match l with
  | [] => deqb cur (D1 Nil)
  | (d, (s1, s2, s3, s4, s5)) :: t =>
      step n cur cur s1 &&
      (let c1 := ofN (snd s1) in step n c1 c1 s2 &&
      (let c2 := ofN (snd s2) in step n c2 c2 s3 &&
      (let c3 := ofN (snd s3) in step n c3 c3 s4 &&
      (let c4 := ofN (snd s4) in match nth_error T d with Some p => step n c4 p s5 | None => false end && power n T t (ofN (snd s5))))))
  end.
Fixpoint value (l : list (nat * (qr * qr * qr * qr * qr))) (acc : Z) : Z :=
  match l with [] => acc | (d, _) :: t => value t (16 * acc + Z.of_nat d) end.
Definition zn (x : dg) : Z := Z.of_N (num x).
Lemma step_ok n a b s : step n a b s = true -> cong (zn n) (zn (ofN (snd s))) (zn a * zn b).
Proof.
  intros H. apply deqb_ok in H. rewrite num_add, !num_mul, N.add_0_r in H. unfold cong, zn. exists (- Z.of_N (num (ofN (fst s)))). nia.
Qed.
Definition powers (n : dg) (b : Z) (T : list dg) (k : Z) : Prop := forall d p, nth_error T d = Some p -> cong (zn n) (zn p) (b ^ (k + Z.of_nat d)).
Lemma table_ok n b l : forall k cur, 0 <= k -> cong (zn n) (zn cur) (zn b ^ k) -> table n b l cur = true -> powers n (zn b) (cur :: map (fun s => ofN (snd s)) l) k.
Proof.
  induction l as [|s t IH]; intros k cur Hk C H d p E.
  - destruct d as [|[|d]]; cbn in E; try discriminate. injection E as <-. now rewrite Z.add_0_r.
  - destruct d as [|d]; [cbn in E; injection E as <-; now rewrite Z.add_0_r|]. cbn [table] in H. apply andb_true_iff in H. destruct H as (H1 & H2). apply step_ok in H1.
    replace (k + Z.of_nat (S d)) with (k + 1 + Z.of_nat d) by lia. apply (IH (k + 1) (ofN (snd s))); [lia| |exact H2|exact E].
    eapply cong_trans; [exact H1|]. rewrite Z.pow_add_r, Z.pow_1_r by lia. apply cong_mul; [exact C|apply cong_refl].
Qed.
Lemma sq_cong n b e cur s : 0 <= e -> cong (zn n) (zn cur) (b ^ e) -> step n cur cur s = true -> cong (zn n) (zn (ofN (snd s))) (b ^ (2 * e)).
Proof. intros He H K. eapply cong_trans; [apply step_ok, K|]. replace (2 * e) with (e + e) by ring. rewrite Z.pow_add_r by lia. now apply cong_mul. Qed.
Lemma power_ok n b T : powers n b T 0 -> forall l e cur, 0 <= e -> cong (zn n) (zn cur) (b ^ e) -> power n T l cur = true -> cong (zn n) (b ^ value l e) 1.
Proof.
  intros HT. induction l as [|(d, ((((s1, s2), s3), s4), s5)) t IH]; intros e cur He C H.
  - cbn in H |- *. apply deqb_ok in H. apply cong_sym. unfold zn in C at 2. rewrite H in C. exact C.
  - cbn [power] in H. cbv zeta in H. rewrite !andb_true_iff in H. destruct H as (H1 & H2 & H3 & H4 & H5 & H6).
    destruct (nth_error T d) as [p|] eqn:E; [|discriminate]. cbn [value]. apply (IH _ (ofN (snd s5))); [lia| |exact H6].
    eapply cong_trans; [apply step_ok, H5|]. replace (16 * e + Z.of_nat d) with (2 * (2 * (2 * (2 * e))) + Z.of_nat d) by ring. rewrite Z.pow_add_r by lia.
    apply cong_mul; [|exact (HT d p E)].
    apply (sq_cong n b _ (ofN (snd s3))); [lia| |exact H4]. apply (sq_cong n b _ (ofN (snd s2))); [lia| |exact H3].
    apply (sq_cong n b _ (ofN (snd s1))); [lia| |exact H2]. apply (sq_cong n b _ cur); [lia|exact C|exact H1].
Qed.
(** A certificate for one prime q: b - 1 of the element b of order q, the steps, the inverse of b - 1. *)
Record cert := CERT { ct_b1 : N; ct_table : list qr; ct_power : list (nat * (qr * qr * qr * qr * qr)); ct_inv : N; ct_last : N }.
Definition check (n : dg) (c : cert) : bool :=
  let b1 := ofN (ct_b1 c) in let b := dadd false b1 (D1 Nil) in
  table n b (ct_table c) (D1 Nil) && power n (D1 Nil :: map (fun s => ofN (snd s)) (ct_table c)) (ct_power c) (D1 Nil) &&
  step n b1 (ofN (ct_inv c)) (ct_last c, 1%N).
Definition exponent (c : cert) : Z := value (ct_power c) 0.
Lemma check_ok n c : check n c = true -> prime (exponent c) -> witness (zn n) (exponent c).
Proof.
  unfold check. cbv zeta. rewrite !andb_true_iff. intros ((A & B) & C) P. split; [exact P|].
  set (b := dadd false (ofN (ct_b1 c)) (D1 Nil)) in *. exists (zn b), (zn (ofN (ct_inv c))). split.
  - unfold exponent. apply (power_ok n (zn b) (D1 Nil :: map (fun s => ofN (snd s)) (ct_table c))) with (cur := D1 Nil).
    + apply table_ok; [lia|rewrite Z.pow_0_r; apply cong_refl|exact A].
    + lia.
    + rewrite Z.pow_0_r. apply cong_refl.
    + exact B.
  - apply step_ok in C. apply cong_sym. replace (zn b - 1) with (zn (ofN (ct_b1 c))); [exact C|].
    unfold b, zn. rewrite num_add, N.add_0_r. cbn [num]. lia.
Qed.
Fixpoint distinct (l : list Z) : bool := match l with [] => true | x :: t => negb (existsb (Z.eqb x) t) && distinct t end.
Lemma distinct_ok l : distinct l = true -> NoDup l.
Proof.
  induction l as [|x t IH]; intros H; [constructor|]. cbn in H. apply andb_true_iff in H. destruct H as (A & B). constructor; [|now apply IH].
  intros J. apply negb_true_iff in A. assert (E : existsb (Z.eqb x) t = true) by (apply existsb_exists; exists x; split; [exact J|apply Z.eqb_refl]). congruence.
Qed.
Definition good (n : N) (cs : list cert) : bool :=
  let d := ofN n in (1 <? n)%N && forallb (check d) cs && (Z.of_N n <? (prod (map exponent cs) + 1) ^ 2) && distinct (map exponent cs).
Lemma good_prime n cs : good n cs = true -> (forall c, In c cs -> prime (exponent c)) -> prime (Z.of_N n).
Proof.
  unfold good. cbv zeta. rewrite !andb_true_iff. intros (((A & B) & C) & D) P. apply N.ltb_lt in A. apply Z.ltb_lt in C.
  apply (pocklington (Z.of_N n) (map exponent cs)); [lia|exact (distinct_ok _ D)| |exact C].
  intros q J. apply in_map_iff in J. destruct J as (c & <- & J). rewrite forallb_forall in B.
  replace (Z.of_N n) with (zn (ofN n)) by (unfold zn; now rewrite num_ofN). apply check_ok; [now apply B|now apply P].
Qed.

(** Small primes by trial division. *)
Definition small (n : Z) : bool := (1 <? n) && forallb (fun d => negb (n mod Z.of_nat d =? 0)) (seq 2 (Z.to_nat (Z.sqrt n) - 1)).
Lemma small_prime n : small n = true -> prime n.
Proof.
  unfold small. rewrite andb_true_iff. intros (A & B). apply Z.ltb_lt in A. destruct (prime_dec n) as [P | P]; [exact P|exfalso].
  destruct (smallest_divisor n A) as (p & Pp & D & S). specialize (S P). assert (Hp := prime_ge_2 p Pp).
  assert (L : p <= Z.sqrt n) by (apply Z.sqrt_le_square; lia).
  rewrite forallb_forall in B. specialize (B (Z.to_nat p)). rewrite Z2Nat.id in B by lia.
  assert (J : In (Z.to_nat p) (seq 2 (Z.to_nat (Z.sqrt n) - 1))) by (apply in_seq; lia). specialize (B J).
  apply Z.mod_divide in D; [|lia]. rewrite D in B. discriminate.
Qed.
