(** OpenSSL's arithmetic on points of binary curves (crypto/ec/ec2_smpl.c), affine. *)
From Verif Require Import Base Model_Gf2m Model_Compress.

(** field_div.  The divisor is never 0 below; for an irreducible polynomial the division
    cannot fail.  Simplification: for a reducible one the result here is 0 where OpenSSL would
    report an error. *)
Definition gdiv (p a b : N) : N := match ginv p b with Some i => gmul p a i | None => 0 end.

(** ec_GF2m_simple_invert. *)
Definition pneg (P : point) : point := match P with None => None | Some (x, y) => Some (x, N.lxor x y) end.

(** ec_GF2m_simple_add. *)
Definition padd (c : curve) (P Q : point) : point :=
  let p := c_p c in
  match P, Q with
  | None, _ => Q
  | _, None => P
  | Some (x0, y0), Some (x1, y1) =>
      if negb (x0 =? x1) then
        let t := N.lxor x0 x1 in
        let s := gdiv p (N.lxor y0 y1) t in
        let x2 := N.lxor (N.lxor (N.lxor (gsqr p s) (c_a c)) s) t in
        Some (x2, N.lxor (N.lxor (gmul p (N.lxor x1 x2) s) x2) y1)
      else if negb (y0 =? y1) || (x1 =? 0) then None
      else
        let s := N.lxor (gdiv p y1 x1) x1 in
        let x2 := N.lxor (N.lxor (gsqr p s) s) (c_a c) in
        Some (x2, N.lxor (N.lxor (gmul p (N.lxor x1 x2) s) x2) y1)
  end.

(** EC_POINT_mul with one point: k times P.  OpenSSL uses a ladder; here doubling and adding. *)
Fixpoint pmulp (c : curve) (k : positive) (P : point) : point :=
  match k with
  | xH => P
  | xO k => let Q := pmulp c k P in padd c Q Q
  | xI k => let Q := pmulp c k P in padd c (padd c Q Q) P
  end.
(** EC_POINT_mul (OpenSSL) of one point, called at params.c:537-567 and sign.c:117. *)
Definition pmul (c : curve) (k : N) (P : point) : point := match k with 0 => None | Npos k => pmulp c k P end.

(** EC_GROUP: curve, generator, order, cofactor. *)
Record group := GROUP { g_curve : curve; g_gen : point; g_order : N; g_cofactor : N }.

(** EC_GROUP_new_curve_GF2m: only trinomials and pentanomials; a and b are reduced. *)
Fixpoint pweight (a : positive) : N := match a with xH => 1 | xO a => pweight a | xI a => 1 + pweight a end.
(** How many coefficients are not zero. *)
Definition weight (a : N) : N := match a with 0 => 0 | Npos a => pweight a end.
(** EC_GROUP_new_curve_GF2m (OpenSSL), called at params.c:394-475 and key.c:315. *)
Definition new_curve (p a b : N) : option curve :=
  if (weight p =? 3) || (weight p =? 5) then Some (CURVE p (pmod a p) (pmod b p)) else None.
(** EC_GROUP_set_generator: the order must be positive and not much longer than the field
    polynomial; a cofactor given is taken as it is. *)
Definition set_generator (c : curve) (G : point) (order cofactor : N) : option group :=
  if (order =? 0) || (num_bits (c_p c) + 1 <? num_bits order) then None else Some (GROUP c G order cofactor).
(** EC_POINT_cmp = 0, EC_GROUP_cmp = 0. *)
Definition point_eqb (P Q : point) : bool :=
  match P, Q with
  | None, None => true
  | Some (x, y), Some (x', y') => (x =? x') && (y =? y')
  | _, _ => false
  end.
(** EC_GROUP_cmp = 0 (OpenSSL), called at params.c:284-312 and ameth.c:134-158. *)
Definition group_eqb (g h : group) : bool :=
  (c_p (g_curve g) =? c_p (g_curve h)) && (c_a (g_curve g) =? c_a (g_curve h)) && (c_b (g_curve g) =? c_b (g_curve h)) &&
  point_eqb (g_gen g) (g_gen h) && (g_order g =? g_order h) && (g_cofactor g =? g_cofactor h).
