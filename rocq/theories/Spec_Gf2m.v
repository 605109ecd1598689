(** Irreducible polynomials over GF(2), trace; independent of OpenSSL's algorithms. *)
From Verif Require Import Base Model_Gf2m.

(** No proper factors. *)
Definition irreducible (p : N) : Prop := 1 < p /\ forall a b, clmul a b = p -> a = 1 \/ b = 1.
(** A reduced element of the field with polynomial p. *)
Definition elem (p a : N) : Prop := a < 2 ^ degree p.
(** The trace of an element: the sum of its m conjugates a^(2^i). *)
Definition trace_of (p a : N) : N := fold_right N.lxor 0 (map (fun i => gsqrs p i a) (seq 0 (N.to_nat (degree p)))).
(** What is expected of BN_GF2m_mod_solve_quad: roots of z^2 + z = a, found if there are any. *)
Definition good_solver (p : N) (solve : N -> N -> option N) : Prop :=
  (forall a z, elem p a -> solve p a = Some z -> elem p z /\ N.lxor (gsqr p z) z = a) /\
  (forall a z, elem p a -> elem p z -> N.lxor (gsqr p z) z = a -> solve p a <> None).
