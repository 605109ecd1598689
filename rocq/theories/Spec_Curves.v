(** What a standard group must be. *)
From Verif Require Import Base Model_Gf2m Model_Compress Model_Ec Spec_Gf2m Spec_Compress.

(** A group for DSTU 4145: a non-singular curve over a field of odd degree, a base point on the
    curve whose compression is defined, and an odd order > 1 that annihilates the base point. *)
Definition well_formed (g : group) : Prop :=
  let c := g_curve g in
  dstu_curve c /\ c_b c <> 0 /\
  (exists x y, g_gen g = Some (x, y) /\ on_curve c x y /\ compressible c x) /\
  1 < g_order g /\ N.odd (g_order g) = true /\ pmul c (g_order g) (g_gen g) = None.
(** Infinity or a point on the curve. *)
Definition curve_point (c : curve) (P : point) : Prop := match P with None => True | Some (x, y) => on_curve c x y end.
