(** Properties of the standard curves (dstulib/params.c). *)
From Coq Require Import Lia ZArith Znumtheory.
From Verif Require Import Base Lib Model_Gf2m Model_Compress Model_Ec Model_Curves Spec_Gf2m Spec_Compress Spec_Curves Spec_Toy Proof_Curves2 Proof_Curves3 Proof_Primes Proof_Toy.

(** C34: the ten identifiers give well-formed groups, which are recognised. *)
Theorem C34_standard : forall nid, (1160 <= nid <= 1169)%Z -> exists g, group_from_nid nid = Some g /\ well_formed g /\ curve_nid_from_group g = nid.
Proof. exact standard. Qed.
Print Assumptions C34_standard.
Theorem C34_others_refused : forall nid, ~ (1160 <= nid <= 1169)%Z -> group_from_nid nid = None.
Proof. exact other. Qed.
Print Assumptions C34_others_refused.
(** A group is recognised only if it is the standard one with that identifier. *)
Theorem C34_recognised : forall g, curve_nid_from_group g <> 0%Z -> group_from_nid (curve_nid_from_group g) = Some g.
Proof. exact recognised. Qed.
Print Assumptions C34_recognised.
Theorem C34_distinct : forall nid nid' g g', group_from_nid nid = Some g -> group_from_nid nid' = Some g' -> nid <> nid' ->
  degree (c_p (g_curve g)) <> degree (c_p (g_curve g')).
Proof. exact distinct. Qed.
Print Assumptions C34_distinct.
(** The order is a prime number. *)
Theorem C34_prime : forall nid g, group_from_nid nid = Some g -> prime (Z.of_N (g_order g)).
Proof. exact nid_prime. Qed.
Print Assumptions C34_prime.
(** Why a multiple of the base point means what it says: on such curves the addition formulas
    used make the points a commutative group, and multiplication is repeated addition. *)
Theorem C34_group_law : forall g P Q R, well_formed g -> let c := g_curve g in curve_point c P -> curve_point c Q -> curve_point c R ->
  curve_point c (padd c P Q) /\ curve_point c (pneg P) /\
  padd c (padd c P Q) R = padd c P (padd c Q R) /\ padd c P Q = padd c Q P /\ padd c None P = P /\ padd c P (pneg P) = None.
Proof. exact (fun g P Q R W => group_law (g_curve g) P Q R (wf_nonsing g W)). Qed.
Print Assumptions C34_group_law.
Theorem C34_multiples : forall g i j P, well_formed g -> let c := g_curve g in curve_point c P ->
  pmul c 0 P = None /\ pmul c 1 P = P /\ pmul c (i + j) P = padd c (pmul c i P) (pmul c j P) /\ pmul c (i * j) P = pmul c i (pmul c j P).
Proof. exact (fun g i j P W => multiples (g_curve g) i j P (wf_nonsing g W)). Qed.
Print Assumptions C34_multiples.
Example C34_ex : exists g, group_from_nid 1165 = Some g /\ degree (c_p (g_curve g)) = 233 /\ curve_nid_from_group g = 1165%Z /\
  curve_nid_from_group (GROUP (g_curve g) (g_gen g) (g_order g + 2) 1) = 0%Z /\ curve_nid_from_group toy_group = 0%Z.
Proof.
  exists (std 5). split; [apply from_nid|]. split; [vm_compute; reflexivity|]. split; [apply nid_std; lia|]. split; [|vm_compute; reflexivity].
  vm_compute. reflexivity.
Qed.
Example C34_ex_toy : well_formed toy_group /\ curve_point toy (Some (3, 25)) /\ curve_point toy (Some (1, 8)) /\
  padd toy (Some (3, 25)) (Some (1, 8)) = Some (26, 11) /\ pmul toy 17 (Some (3, 25)) = None /\ pmul toy 16 (Some (3, 25)) = Some (3, 26).
Proof. split; [exact toy_good|]. split; [apply toy_on; vm_compute; reflexivity|]. split; [apply toy_on; vm_compute; reflexivity|]. vm_compute. repeat split. Qed.
