(** OpenSSL's BN_GF2m arithmetic, as far as the engine calls it.  A BIGNUM is an [N]; as a
    polynomial over GF(2) its coefficients are its bits.  OpenSSL is outside /repo: these
    definitions state what its functions compute, not how.  Memory is sufficient. *)
From Verif Require Import Base.

(** Product of polynomials. *)
Fixpoint pclmul (a : positive) (b : N) : N :=
  match a with
  | xH => b
  | xO a => N.double (pclmul a b)
  | xI a => N.lxor b (N.double (pclmul a b))
  end.
(** Product of polynomials over GF(2) (OpenSSL bn_gf2m.c). *)
Definition clmul (a b : N) : N := match a with 0 => 0 | Npos a => pclmul a b end.

(** BN_num_bits, BN_num_bytes. *)
Definition num_bits (a : N) : N := N.size a.
(** BN_num_bytes (OpenSSL), used at sign.c:96 and elsewhere. *)
Definition num_bytes (a : N) : N := (num_bits a + 7) / 8.
(** EC_GROUP_get_degree for the field polynomial p. *)
Definition degree (p : N) : N := num_bits p - 1.

(** BN_GF2m_mod: remainder by long division, highest coefficient first. *)
Definition reduce1 (p m r : N) : N := if N.testbit r m then N.lxor r p else r.
(** The long division, coefficient by coefficient. *)
Fixpoint ppmod (p m : N) (a : positive) : N :=
  match a with
  | xH => reduce1 p m 1
  | xO a => reduce1 p m (N.double (ppmod p m a))
  | xI a => reduce1 p m (N.succ_double (ppmod p m a))
  end.
(** BN_GF2m_mod (OpenSSL). *)
Definition pmod (a p : N) : N := match a with 0 => 0 | Npos a => ppmod p (degree p) a end.

(** BN_GF2m_mod_mul, BN_GF2m_mod_sqr; BN_GF2m_add is [N.lxor]. *)
Definition gmul (p a b : N) : N := pmod (clmul a b) p.
(** BN_GF2m_mod_sqr (OpenSSL). *)
Definition gsqr (p a : N) : N := gmul p a a.

(** [n] squarings. *)
Fixpoint gsqrs (p : N) (n : nat) (a : N) : N :=
  match n with O => a | S k => gsqrs p k (gsqr p a) end.
(** a^e for a binary exponent. *)
Fixpoint gpow (p a : N) (e : positive) : N :=
  match e with
  | xH => pmod a p
  | xO e => gsqr p (gpow p a e)
  | xI e => gmul p a (gsqr p (gpow p a e))
  end.
(** BN_GF2m_mod_inv: the inverse, or failure.  Simplification: OpenSSL uses Euclid's
    algorithm; here the inverse is looked for as the power 2^m - 2, which finds it whenever p
    is irreducible, and is checked.  (For a reducible p some inverses are missed.) *)
Definition ginv (p a : N) : option N :=
  match 2 ^ degree p - 2 with
  | 0 => if pmod a p =? 1 then Some 1 else None
  | Npos e => let r := gpow p a e in if gmul p a r =? 1 then Some r else None
  end.
(** BN_GF2m_mod_sqrt: 2^(m-1) is a square root's exponent. *)
Definition gsqrt (p a : N) : N := gsqrs p (N.to_nat (degree p - 1)) (pmod a p).
(** BN_GF2m_mod_solve_quad for odd m: the half trace, checked.  For even m OpenSSL draws
    random numbers; callers take the solver as an argument. *)
Fixpoint half_trace (p a : N) (n : nat) (z : N) : N :=
  match n with O => z | S k => half_trace p a k (N.lxor (gsqr p (gsqr p z)) a) end.
(** BN_GF2m_mod_solve_quad (OpenSSL), called at compress.c:115-219. *)
Definition solve_quad (p a : N) : option N :=
  let a := pmod a p in
  if a =? 0 then Some 0
  else let z := half_trace p a (N.to_nat ((degree p - 1) / 2)) a in
       if N.lxor (gsqr p z) z =? a then Some z else None.
