(** Model of dstulib/compress.c: compressed points of binary curves. *)
From Verif Require Import Base Model_Gf2m.

(** EC_GROUP: the curve y^2 + xy = x^3 + ax^2 + b over GF(2)[X]/p.  EC_GROUP_new_curve_GF2m
    reduces a and b. *)
Record curve := CURVE { c_p : N; c_a : N; c_b : N }.
(** EC_POINT: None is the point at infinity. *)
Definition point := option (N * N).

(** OpenSSL's EC_POINT_is_on_curve (ec2_smpl.c): ((x + a) x + y) x + b + y^2 = 0. *)
Definition on_curveb (c : curve) (x y : N) : bool :=
  let p := c_p c in
  N.lxor (N.lxor (gmul p (N.lxor (gmul p (N.lxor x (c_a c)) x) y) x) (c_b c)) (gsqr p y) =? 0.
(** EC_POINT_set_affine_coordinates_GF2m (1.1.1): copies the coordinates and checks. *)
Definition set_affine (c : curve) (x y : N) : option point :=
  if on_curveb c x y then Some (Some (x, y)) else None.

(** compress.c:14-42 bn_trace: 1, 0, or None for -1.  Simplification: BN operations succeed. *)
Fixpoint trace_loop (n : nat) (bn p r : N) : N :=
  match n with O => r | S k => trace_loop k bn p (N.lxor (gsqr p r) bn) end.
(** compress.c:14-42 bn_trace. *)
Definition bn_trace (bn p : N) : option bool :=
  let r := trace_loop (N.to_nat (num_bits p - 2)) bn p bn in
  if r =? 1 then Some true else if r =? 0 then Some false else None.

(** params.c:608-616 bn_encode: the bytes written, and the result of BN_bn2bin, which is the
    number of significant bytes (0 for the value 0). *)
Definition bn_encode (bn len : N) : option (list N * N) :=
  if len <? num_bytes bn then None else Some (be_bytes (N.to_nat len) bn, num_bytes bn).

(** compress.c:51, 122 *)
Definition field_size (c : curve) : N := (degree (c_p c) + 7) / 8.

(** compress.c:44-113 dstu_point_compress: the bytes in the buffer on success. *)
Definition compress (c : curve) (P : point) (len : N) : option (list N) :=
  let p := c_p c in
  if len <? field_size c then None
  else match P with
  | None => None
  | Some (x, y) =>
      if x =? 0 then Some (zeros (N.to_nat (field_size c)))
      else match ginv p x with
      | None => None
      | Some x_inv =>
          match bn_trace (gmul p y x_inv) p with
          | None => None
          | Some t =>
              match bn_encode (if t then N.setbit x 0 else N.clearbit x 0) (field_size c) with
              | None => None
              | Some (out, r) => if r =? 0 then None else Some out
              end
          end
      end
  end.

(** compress.c:115-219 dstu_point_expand.  [solve] is BN_GF2m_mod_solve_quad. *)
Definition expand (solve : N -> N -> option N) (compressed : list N) (c : curve) : option point :=
  let p := c_p c in let a := c_a c in
  if N.of_nat (length compressed) <? field_size c then None
  else let x := be_val compressed in
  if x =? 0 then set_affine c x (gsqrt p (c_b c))
  else
    let k := N.testbit x 0 in
    let x := N.clearbit x 0 in
    match bn_trace x p with
    | None => None
    | Some trace =>
        let x := if (trace && (a =? 0)) || (negb trace && (a =? 1)) then N.setbit x 0 else x in
        let x2 := gsqr p x in
        let y := gmul p x2 x in
        let y := if a =? 1 then N.lxor y x2 else y in
        let y := N.lxor y (c_b c) in
        match ginv p x2 with
        | None => None
        | Some x2 =>
            match solve p (gmul p y x2) with
            | None => None
            | Some y =>
                (* the value -1 of bn_trace is not tested here: it counts as true *)
                let trace := match bn_trace y p with Some t => t | None => true end in
                let y := if xorb k trace then N.lxor y 1 else y in
                set_affine c x (gmul p y x)
            end
        end
    end.
