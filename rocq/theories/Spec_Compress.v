(** Binary curves and what compressed points mean. *)
From Verif Require Import Base Model_Gf2m Model_Compress Spec_Gf2m.

(** y^2 + xy = x^3 + ax^2 + b, both coordinates in the field. *)
Definition on_curve (c : curve) (x y : N) : Prop :=
  let p := c_p c in
  elem p x /\ elem p y /\
  N.lxor (gsqr p y) (gmul p x y) = N.lxor (N.lxor (gmul p x (gsqr p x)) (gmul p (c_a c) (gsqr p x))) (c_b c).
(** The curves of DSTU 4145: an irreducible polynomial of odd degree, a is 0 or 1. *)
Definition dstu_curve (c : curve) : Prop :=
  irreducible (c_p c) /\ N.odd (degree (c_p c)) = true /\ (c_a c = 0 \/ c_a c = 1) /\ elem (c_p c) (c_b c).
(** The points for which the standard defines compression. *)
Definition compressible (c : curve) (x : N) : Prop := trace_of (c_p c) x = trace_of (c_p c) (c_a c).

(** The point a compressed string stands for: x with its lowest bit replaced by the trace of
    z = y/x; zero stands for the point with x = 0. *)
Definition stands_for (c : curve) (s : list N) (x y : N) : Prop :=
  on_curve c x y /\
  ((be_val s = 0 /\ x = 0) \/
   (be_val s <> 0 /\ x <> 0 /\ compressible c x /\ be_val s / 2 = x / 2 /\
    exists z, elem (c_p c) z /\ gmul (c_p c) z x = y /\ trace_of (c_p c) z = be_val s mod 2)).
