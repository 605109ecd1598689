(** The base points of the standard groups have prime order. *)
From Coq Require Import Lia ZArith Znumtheory.
From Verif Require Import Base Lib Model_Gf2m Model_Compress Model_Ec Model_Curves Spec_Gf2m Spec_Compress Spec_Curves.
From Verif Require Import Proof_Ec Proof_Ec2 Proof_Curves2 Proof_Curves3.
From Verif Require Proof_Prime1 Proof_Prime2 Proof_Prime3 Proof_Prime4.

Lemma std_prime i : (i < 10)%nat -> prime (Z.of_N (g_order (std i))).
Proof.
  intros H. do 10 try (destruct i as [|i]).

  - exact Proof_Prime1.order163_prime.
  - exact Proof_Prime1.order167_prime.
  - exact Proof_Prime1.order173_prime.
  - exact Proof_Prime1.order179_prime.
  - exact Proof_Prime2.order191_prime.
  - exact Proof_Prime2.order233_prime.
  - exact Proof_Prime2.order257_prime.
  - exact Proof_Prime3.order307_prime.
  - exact Proof_Prime3.order367_prime.
  - exact Proof_Prime4.order431_prime.
  - exfalso. lia.
Qed.
Lemma nid_prime nid g : group_from_nid nid = Some g -> prime (Z.of_N (g_order g)).
Proof.
  rewrite from_nid. destruct ((1160 <=? nid) && (nid <=? 1169))%Z eqn:E; [|discriminate]. intros [= <-]. apply andb_true_iff in E. destruct E as (A & B).
  apply Z.leb_le in A. apply Z.leb_le in B. apply std_prime. lia.
Qed.

(** Multiples of a base point of prime order. *)
Lemma mul_inf c k : nonsing c -> pmul c k None = None.
Proof. intros H. open_c c H. apply pmul_None; assumption. Qed.
Section Prime.
Variable g : group.
Hypothesis W : well_formed g.
Hypothesis Pr : prime (Z.of_N (g_order g)).
Notation c := (g_curve g).
Notation n := (g_order g).
Notation G := (g_gen g).

Lemma gen_point : curve_point c G.
Proof. destruct W as [_ [_ [[x [y [E [O _]]]] _]]]. rewrite E. exact O. Qed.
Lemma gen_finite : G <> None.
Proof. destruct W as [_ [_ [[x [y [E _]]] _]]]. rewrite E. discriminate. Qed.
Lemma killed : pmul c n G = None.
Proof. apply W. Qed.
Lemma add_mul i j : pmul c (i + j) G = padd c (pmul c i G) (pmul c j G).
Proof. apply (multiples c i j G (wf_nonsing g W) gen_point). Qed.
Lemma mul_mul i j : pmul c (i * j) G = pmul c i (pmul c j G).
Proof. apply (multiples c i j G (wf_nonsing g W) gen_point). Qed.
Lemma mul_period k : pmul c (k * n) G = None.
Proof. rewrite mul_mul, killed. apply mul_inf, (wf_nonsing g W). Qed.
Lemma mul_point k : curve_point c (pmul c k G).
Proof.
  pose proof (wf_nonsing g W) as H. pose proof gen_point as P. revert H P. destruct g as [c' G' n' h']. cbn [g_curve g_gen]. intros H P.
  open_c c' H. rewrite point_pt in * by assumption. apply pmul_pt; assumption.
Qed.

Lemma zero_divides k : pmul c k G = None -> N.divide n k.
Proof.
  intros E. assert (n1 : 1 < n) by apply W.
  destruct (Zdivide_dec (Z.of_N n) (Z.of_N k)) as [(q & D)|D].
  - exists (Z.to_N q). destruct (Z.eq_dec (Z.of_N k) 0) as [Ek|Ek].
    + assert (k = 0) as -> by lia. assert (q = 0)%Z as -> by nia. reflexivity.
    + assert (0 <= q)%Z by nia. apply N2Z.inj. rewrite N2Z.inj_mul, Z2N.id by lia. exact D.
  - exfalso. assert (R : rel_prime (Z.of_N k) (Z.of_N n)) by (apply rel_prime_sym, prime_rel_prime; assumption).
    destruct (rel_prime_bezout _ _ R) as [u v B].
    (* u k + v n = 1; make u positive *)
    set (N0 := Z.of_N n) in *. set (k0 := Z.of_N k) in *. assert (N0 > 1)%Z by (unfold N0; lia). assert (k0 >= 0)%Z by (unfold k0; lia).
    set (u' := (u + (Z.abs u) * N0)%Z). set (v' := ((Z.abs u) * k0 - v)%Z).
    assert (B' : (u' * k0 = 1 + v' * N0)%Z) by (unfold u', v'; nia).
    assert (0 <= u')%Z by (unfold u'; nia). assert (0 <= v')%Z by nia.
    assert (B2 : Z.to_N u' * k = 1 + Z.to_N v' * n).
    { apply N2Z.inj. rewrite N2Z.inj_add, !N2Z.inj_mul, !Z2N.id by assumption. exact B'. }
    apply gen_finite. transitivity (pmul c (1 + Z.to_N v' * n) G).
    + rewrite add_mul, mul_period. change (pmul c 1 G) with G. destruct G as [[? ?]|]; reflexivity.
    + rewrite <- B2, mul_mul, E. apply mul_inf, (wf_nonsing g W).
Qed.
Lemma order_exact k : pmul c k G = None <-> N.divide n k.
Proof. split; [apply zero_divides|]. intros (q & ->). apply mul_period. Qed.
Lemma mul_inj_le i j : i <= j -> j < n -> pmul c i G = pmul c j G -> i = j.
Proof.
  intros L B E. assert (Z0 : pmul c (j - i) G = None).
  { pose proof (add_mul i (j - i)) as A. replace (i + (j - i)) with j in A by lia. rewrite <- E in A.
    set (X := pmul c i G) in *. set (Y := pmul c (j - i) G) in *.
    assert (HX : curve_point c X) by apply mul_point. assert (HY : curve_point c Y) by apply mul_point.
    pose proof (wf_nonsing g W) as NS.
    destruct (group_law c (pneg X) X Y NS ltac:(apply (group_law c X X X NS HX HX HX)) HX HY) as (_ & _ & As & Cm & _ & _).
    destruct (group_law c X X X NS HX HX HX) as (_ & _ & _ & _ & _ & Ng). rewrite Cm, Ng in As. rewrite <- A in As.
    rewrite Cm, Ng in As. exact As. }
  apply order_exact in Z0. destruct Z0 as (q & D). destruct (N.eq_dec q 0) as [-> | Hq]; [lia|]. nia.
Qed.
Lemma mul_inj i j : i < n -> j < n -> pmul c i G = pmul c j G -> i = j.
Proof. intros A B E. destruct (N.le_ge_cases i j) as [L|L]; [apply mul_inj_le; assumption|]. symmetry. apply mul_inj_le; [exact L|exact A|symmetry; exact E]. Qed.
Lemma neg_inj P Q : pneg P = pneg Q -> P = Q.
Proof.
  destruct P as [[x y]|], Q as [[x' y']|]; cbn; try discriminate; [|reflexivity]. intros [= -> E]. f_equal. f_equal.
  rewrite <- (N.lxor_0_r y), <- (N.lxor_nilpotent x'), <- N.lxor_assoc, (N.lxor_comm y), E, (N.lxor_comm x'), N.lxor_assoc, N.lxor_nilpotent. apply N.lxor_0_r.
Qed.
End Prime.
