(** The small curve of the examples is well-formed. *)
From Coq Require Import Lia.
From Verif Require Import Base Lib Model_Gf2m Model_Compress Model_Ec Spec_Gf2m Spec_Compress Spec_Curves Spec_Toy Proof_Gf2 Proof_Irr.
Lemma toy_irr : irreducible 37.
Proof. apply (irr_check_ok 5 5). vm_compute. reflexivity. Qed.
Lemma toy_dstu : dstu_curve toy.
Proof. split; [exact toy_irr|]. split; [reflexivity|]. split; [right; reflexivity|vm_compute; reflexivity]. Qed.
Lemma toy_on x y : (x <? 32) && (y <? 32) && (N.lxor (gsqr 37 y) (gmul 37 x y) =? N.lxor (N.lxor (gmul 37 x (gsqr 37 x)) (gmul 37 1 (gsqr 37 x))) 2) = true -> on_curve toy x y.
Proof.
  intros H. apply andb_true_iff in H as [H H2]. apply andb_true_iff in H as [H H1].
  apply N.ltb_lt in H, H1. apply N.eqb_eq in H2. split; [exact H|]. split; [exact H1|exact H2].
Qed.
Lemma toy_good : well_formed toy_group.
Proof.
  split; [exact toy_dstu|]. split; [discriminate|]. split; [|split; [reflexivity|split; [reflexivity|vm_compute; reflexivity]]].
  exists 3, 25. split; [reflexivity|]. split; [apply toy_on; vm_compute; reflexivity|vm_compute; reflexivity].
Qed.
