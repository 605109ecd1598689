(** Properties of point compression (dstulib/compress.c). *)
From Coq Require Import Lia ZArith.
From Verif Require Import Base Lib Model_Gf2m Model_Compress Model_Ec Model_Curves Spec_Gf2m Spec_Compress Spec_Curves Spec_Toy Proof_Compress2 Proof_Curves3 Proof_Curves4 Proof_Toy.

(** The solver of quadratic equations that OpenSSL uses for odd degrees is what the theorems
    below ask for. *)
Example solver_ex : forall p, irreducible p -> N.odd (degree p) = true -> good_solver p solve_quad.
Proof. exact half_trace_solver. Qed.
Example toy_ex : dstu_curve toy /\ good_solver (c_p toy) solve_quad /\ on_curve toy 3 25 /\ compressible toy 3 /\ ~ compressible toy 2.
Proof.
  split; [exact toy_dstu|]. split; [apply half_trace_solver; [exact toy_irr|reflexivity]|]. split; [apply toy_on; vm_compute; reflexivity|].
  split; [vm_compute; reflexivity|vm_compute; discriminate].
Qed.

(** C36: whatever compression makes of a point, expansion undoes it. *)
Theorem C36_expand_compress : forall c solve x y len out, dstu_curve c -> good_solver (c_p c) solve -> on_curve c x y -> compressible c x \/ x = 0 ->
  compress c (Some (x, y)) len = Some out -> expand solve out c = Some (Some (x, y)).
Proof. exact expand_compress. Qed.
Print Assumptions C36_expand_compress.
(** All multiples of the base point of a well-formed group, hence all public keys, are such
    points; the standard groups are well-formed (C34). *)
Theorem C36_subgroup : forall g k x y solve len out, well_formed g -> good_solver (c_p (g_curve g)) solve ->
  pmul (g_curve g) k (g_gen g) = Some (x, y) -> compress (g_curve g) (Some (x, y)) len = Some out -> expand solve out (g_curve g) = Some (Some (x, y)).
Proof.
  exact (fun g k x y solve len out W S E => expand_compress (g_curve g) solve x y len out (proj1 W) S
    (proj1 (multiples_compressible g k x y W E)) (or_introl (proj2 (multiples_compressible g k x y W E)))).
Qed.
Print Assumptions C36_subgroup.
(** For no other points: these are never the result of expansion. *)
Theorem C36_not_others : forall c solve s x y, dstu_curve c -> good_solver (c_p c) solve -> x <> 0 -> ~ compressible c x -> expand solve s c <> Some (Some (x, y)).
Proof. exact expand_not. Qed.
Print Assumptions C36_not_others.
Example C36_ex : compress toy (Some (3, 25)) 1 = Some [2] /\ expand solve_quad [2] toy = Some (Some (3, 25)) /\
  compress toy (Some (3, 26)) 1 = Some [3] /\ expand solve_quad [3] toy = Some (Some (3, 26)) /\
  compress toy (Some (0, 27)) 1 = Some [0] /\ expand solve_quad [0] toy = Some (Some (0, 27)).
Proof. vm_compute. repeat split. Qed.
Example C36_ex_subgroup : well_formed toy_group /\ pmul toy 3 (Some (3, 25)) = Some (30, 30).
Proof. split; [exact toy_good|vm_compute; reflexivity]. Qed.
(** The base point of the first standard curve. *)
Eval vm_compute in match group_from_nid 1160 with
  | Some g => match compress (g_curve g) (g_gen g) 21 with
              | Some out => match expand solve_quad out (g_curve g), g_gen g with Some (Some (x, y)), Some (x', y') => (x =? x') && (y =? y') | _, _ => false end
              | None => false end
  | None => false end.

(** C37 does not hold: on the standard curves of degree 163 and 367 there is a point with
    x = 1 that can not be compressed, whatever the size of the buffer. *)
Theorem C37_refuted : forall nid, nid = 1160%Z \/ nid = 1168%Z -> exists g y, group_from_nid nid = Some g /\
  on_curve (g_curve g) 1 y /\ compressible (g_curve g) 1 /\ forall len, compress (g_curve g) (Some (1, y)) len = None.
Proof. exact fails_std. Qed.
Print Assumptions C37_refuted.
(** These are the only points that fail, and the other eight curves have none of them. *)
Theorem C37_fails_iff : forall c x y len, dstu_curve c -> on_curve c x y -> field_size c <= len ->
  (compress c (Some (x, y)) len = None <-> x = 1 /\ trace_of (c_p c) y = 0).
Proof. exact compress_fails_iff. Qed.
Print Assumptions C37_fails_iff.
Theorem C37_other_curves : forall nid g x y len, group_from_nid nid = Some g -> nid <> 1160%Z -> nid <> 1168%Z ->
  on_curve (g_curve g) x y -> compressible (g_curve g) x -> field_size (g_curve g) <= len ->
  exists out, compress (g_curve g) (Some (x, y)) len = Some out.
Proof. exact succeeds_std. Qed.
Print Assumptions C37_other_curves.
(** Otherwise compression fills exactly the field size. *)
Theorem C37_success : forall c x y len, dstu_curve c -> on_curve c x y -> x <> 1 \/ trace_of (c_p c) y = 1 -> field_size c <= len ->
  exists out, compress c (Some (x, y)) len = Some out /\ bytesn (N.to_nat (field_size c)) out.
Proof. exact compress_success. Qed.
Print Assumptions C37_success.
Example C37_ex : on_curve toy 1 8 /\ on_curve toy 1 9 /\ trace_of 37 8 = 1 /\ trace_of 37 9 = 0 /\
  compress toy (Some (1, 9)) 1 = None /\ compress toy (Some (1, 8)) 1 = Some [1] /\ compress toy (Some (3, 25)) 0 = None.
Proof. split; [apply toy_on; vm_compute; reflexivity|]. split; [apply toy_on; vm_compute; reflexivity|]. vm_compute. repeat split. Qed.

(** C38: expansion gives points of the curve only; short and oversized input is refused.  No
    assumption on the curve but that b is reduced, as EC_GROUP_new_curve_GF2m leaves it, nor on
    the solver. *)
Theorem C38_on_curve : forall c solve s P, 1 < c_p c -> elem (c_p c) (c_b c) -> expand solve s c = Some P ->
  exists x y, P = Some (x, y) /\ on_curve c x y.
Proof. exact expand_on_curve. Qed.
Print Assumptions C38_on_curve.
Theorem C38_short : forall c solve s, N.of_nat (length s) < field_size c -> expand solve s c = None.
Proof. exact expand_short. Qed.
Print Assumptions C38_short.
Theorem C38_oversize : forall c solve s, 1 < c_p c -> 2 ^ degree (c_p c) <= be_val s -> expand solve s c = None.
Proof. exact expand_oversize. Qed.
Print Assumptions C38_oversize.
(** On the curves of the standard: exactly which string gives which point. *)
Theorem C38_exact : forall c solve s x y, dstu_curve c -> good_solver (c_p c) solve ->
  (expand solve s c = Some (Some (x, y)) <-> field_size c <= N.of_nat (length s) /\ stands_for c s x y).
Proof. exact expand_iff_all. Qed.
Print Assumptions C38_exact.
Example C38_ex : expand solve_quad [] toy = None /\ expand solve_quad [32] toy = None /\ expand solve_quad [1; 3] toy = None /\
  expand solve_quad [0; 2] toy = Some (Some (3, 25)) /\ expand solve_quad [4] toy = None.
Proof. vm_compute. repeat split. Qed.
