(** Identifiers of the standard curves; the group law. *)
From Coq Require Import Lia ZArith.
From Verif Require Import Base Lib Model_Gf2m Model_Compress Model_Ec Model_Curves Spec_Gf2m Spec_Compress Spec_Curves.
From Verif Require Import Proof_Gf2 Proof_Compress Proof_Compress2 Proof_Ec Proof_Ec2 Proof_Curves2.

Lemma from_nid nid : group_from_nid nid = if ((1160 <=? nid) && (nid <=? 1169))%Z then Some (std (Z.to_nat (nid - 1160))) else None.
Proof.
  unfold group_from_nid. set (f := find_curve _ _ _).
  assert (E : f = if ((1160 <=? nid) && (nid <=? 1169))%Z then Some (Z.to_nat (nid - 1160)) else None).
  { unfold f, dstu_curves. cbn [find_curve nc_nid].
    repeat match goal with |- context [Z.eqb nid ?k] => destruct (Z.eqb_spec nid k) as [-> |]; [reflexivity|] end.
    destruct (Z.leb_spec 1160 nid), (Z.leb_spec nid 1169); cbn [andb]; try reflexivity. exfalso. lia. }
  rewrite E. destruct (Z.leb_spec 1160 nid), (Z.leb_spec nid 1169); cbn [andb]; try reflexivity. apply named. lia.
Qed.
Lemma nid_std i : (i < 10)%nat -> curve_nid_from_group (std i) = (1160 + Z.of_nat i)%Z.
Proof.
  intros H. unfold curve_nid_from_group.
  assert (E : find_curve (fun n => (Z.of_N (degree (c_p (g_curve (std i)))) =? hd 0 (nc_poly n))%Z) dstu_curves 0 = Some i).
  { destruct i as [|[|[|[|[|[|[|[|[|[|i]]]]]]]]]]; [..|lia]; vm_compute; reflexivity. }
  rewrite E. destruct (named i H) as [-> _].
  assert (Er : group_eqb (std i) (std i) = true).
  { unfold group_eqb, point_eqb. rewrite !N.eqb_refl. destruct (g_gen (std i)) as [[x y]|]; [rewrite !N.eqb_refl|]; reflexivity. }
  rewrite Er. destruct i as [|[|[|[|[|[|[|[|[|[|i]]]]]]]]]]; [..|lia]; reflexivity.
Qed.
Lemma standard nid : (1160 <= nid <= 1169)%Z -> exists g, group_from_nid nid = Some g /\ well_formed g /\ curve_nid_from_group g = nid.
Proof.
  intros H. exists (std (Z.to_nat (nid - 1160))). rewrite from_nid.
  replace ((1160 <=? nid) && (nid <=? 1169))%Z with true by lia. split; [reflexivity|].
  split; [apply named; lia|]. rewrite nid_std by lia. lia.
Qed.
Lemma other nid : ~ (1160 <= nid <= 1169)%Z -> group_from_nid nid = None.
Proof. intros H. rewrite from_nid. replace ((1160 <=? nid) && (nid <=? 1169))%Z with false by lia. reflexivity. Qed.
Lemma group_eqb_eq g h : group_eqb g h = true -> g = h.
Proof.
  unfold group_eqb. rewrite !andb_true_iff. intros [[[[[H1 H2] H3] H4] H5] H6]. destruct g as [[p a b] G n k], h as [[p' a' b'] G' n' k']. cbn in *.
  assert (G = G'). { destruct G as [[x y]|], G' as [[x' y']|]; cbn in H4; try discriminate; [|reflexivity]. apply andb_true_iff in H4. f_equal. f_equal; lia. }
  f_equal; [f_equal| | |]; try lia. assumption.
Qed.
Lemma find_range f l i j : find_curve f l i = Some j -> (i <= j < i + length l)%nat.
Proof. revert i. induction l as [|n l IH]; intros i; cbn; [discriminate|]. destruct (f n); [intros [= <-]; lia|]. intros H. apply IH in H. lia. Qed.
Lemma recognised g : curve_nid_from_group g <> 0%Z -> group_from_nid (curve_nid_from_group g) = Some g.
Proof.
  intros H. unfold curve_nid_from_group in H |- *. destruct (find_curve _ _ _) as [i|] eqn:Ef; [|contradiction].
  apply find_range in Ef. change (length dstu_curves) with 10%nat in Ef.
  destruct (named i) as [E _]; [lia|]. rewrite E in *.
  destruct (nth_error dstu_curves i) as [n|] eqn:En; [|contradiction]. destruct (group_eqb g (std i)) eqn:Eg; [|contradiction].
  apply group_eqb_eq in Eg. subst g.
  assert (Hn : nc_nid n = (1160 + Z.of_nat i)%Z).
  { assert (Hi : (i < 10)%nat) by lia. destruct i as [|[|[|[|[|[|[|[|[|[|i]]]]]]]]]]; [..|lia]; injection En as <-; reflexivity. }
  rewrite Hn, from_nid. replace ((1160 <=? 1160 + Z.of_nat i) && (1160 + Z.of_nat i <=? 1169))%Z with true by lia. repeat f_equal. lia.
Qed.
Lemma distinct nid nid' g g' : group_from_nid nid = Some g -> group_from_nid nid' = Some g' -> nid <> nid' -> degree (c_p (g_curve g)) <> degree (c_p (g_curve g')).
Proof.
  rewrite !from_nid.
  destruct ((1160 <=? nid) && _)%Z eqn:H; [|discriminate]. destruct ((1160 <=? nid') && _)%Z eqn:H'; [|discriminate].
  intros [= <-] [= <-] Hn. set (i := Z.to_nat (nid - 1160)). set (j := Z.to_nat (nid' - 1160)).
  assert (Hi : (i < 10)%nat) by lia. assert (Hj : (j < 10)%nat) by lia. assert (Hij : i <> j) by lia. clearbody i j.
  destruct i as [|[|[|[|[|[|[|[|[|[|i]]]]]]]]]]; [..|lia]; (destruct j as [|[|[|[|[|[|[|[|[|[|j]]]]]]]]]]; [..|lia]); try contradiction; vm_compute; discriminate.
Qed.

(** The group law. *)
Definition nonsing (c : curve) : Prop := irreducible (c_p c) /\ elem (c_p c) (c_a c) /\ elem (c_p c) (c_b c) /\ c_b c <> 0.
Lemma point_pt p a b P : 1 < p -> elem p b -> curve_point (CURVE p a b) P <-> pt p a b P.
Proof. intros Hp Hb. symmetry. apply pt_on; assumption. Qed.
Lemma wf_nonsing g : well_formed g -> nonsing (g_curve g).
Proof.
  intros [H [H0 _]]. destruct (dstu_parts _ H) as [p [a [b [E [Hp [Hirr [_ [Ha Hb]]]]]]]]. rewrite E in *. split; [exact Hirr|]. split; [|split; assumption].
  cbn. destruct Ha as [-> | ->]; [apply Proof_Field.elem_0|apply Proof_Field.elem_1]; exact Hp.
Qed.
Ltac open_c c H := destruct c as [p a b]; destruct H as [Hirr [Ha [Hb Hb0]]]; cbn [c_p c_a c_b] in *; assert (Hp : 1 < p) by apply Hirr.
Lemma group_law c P Q R : nonsing c -> curve_point c P -> curve_point c Q -> curve_point c R ->
  curve_point c (padd c P Q) /\ curve_point c (pneg P) /\
  padd c (padd c P Q) R = padd c P (padd c Q R) /\ padd c P Q = padd c Q P /\ padd c None P = P /\ padd c P (pneg P) = None.
Proof.
  intros H HP HQ HR. open_c c H. rewrite !point_pt in * by assumption.
  split; [apply padd_pt; assumption|]. split; [apply pneg_pt; assumption|]. split; [apply padd_assoc; assumption|]. split; [apply padd_comm; assumption|].
  split; [reflexivity|]. apply padd_pneg; assumption.
Qed.
Lemma multiples c i j P : nonsing c -> curve_point c P ->
  pmul c 0 P = None /\ pmul c 1 P = P /\ pmul c (i + j) P = padd c (pmul c i P) (pmul c j P) /\ pmul c (i * j) P = pmul c i (pmul c j P).
Proof.
  intros H HP. open_c c H. rewrite point_pt in * by assumption.
  split; [reflexivity|]. split; [reflexivity|]. split; [apply pmul_add; assumption|apply pmul_mul; assumption].
Qed.
(** All multiples of the base point can be compressed. *)
Lemma multiples_compressible g k x y : well_formed g -> pmul (g_curve g) k (g_gen g) = Some (x, y) -> on_curve (g_curve g) x y /\ compressible (g_curve g) x.
Proof.
  intros W. pose proof (wf_nonsing _ W) as H. destruct W as [_ [_ [[gx [gy [Eg [G C]]]] _]]]. destruct g as [c G0 n h]. cbn [g_curve g_gen] in *. subst G0.
  open_c c H. intros E. assert (G' : pt p a b (Some (gx, gy))) by (apply point_pt; [exact Hp|exact Hb|exact G]).
  assert (P : pt p a b (Some (x, y))) by (rewrite <- E; apply pmul_pt; assumption).
  split; [apply (point_pt p a b (Some (x, y))) in P; assumption|].
  apply (trx_compressible p a b Hp Ha x y P). rewrite <- E. apply trx_pmul; try assumption. apply (trx_compressible p a b Hp Ha gx gy G'). exact C.
Qed.
